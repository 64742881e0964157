(** Vocabulary for storing a grid again: which nodes of a file are used.  Nothing here refers to
    the modelled functions. *)

From Coq Require Import List.
From Verif Require Import Py Heap GridSpec FileSpec.
Import ListNotations.

Section StableSpec.
  Context {F : FloatOps}.

  (** Every node of a zone of the file is a corner of a face of this zone. *)
  Definition all_used (zs : list zone_rec) : Prop := forall zr, In zr zs -> forall j, j < length (zr_pts zr) ->
    exists t, In t (zr_conn zr) /\ (let '(a, b, c) := t in a = j \/ b = j \/ c = j).
End StableSpec.
