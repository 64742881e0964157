(** Vocabulary for the properties of counters. *)

From Coq Require Import List.
From Verif Require Import Py Heap.
Import ListNotations.

Section InfoSpec.
  Context {F : FloatOps}.

  (** The edge has two faces and both are in zone [z]. *)
  Definition inside_zone (h : heap) (z e : nat) : Prop :=
    exists f g, e_faces h e = [f; g] /\ f_zone h f = Some z /\ f_zone h g = Some z.
End InfoSpec.
