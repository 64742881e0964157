(** Specification vocabulary for the file written by Grid.Export of the converter. *)

From Coq Require Import ZArith Reals List String.
From Verif Require Import Py Heap GridSpec FileSpec Geom Convert Ansys.
Import ListNotations.
Open Scope list_scope.
Open Scope nat_scope.

Section Export.
  Context {F : FloatOps}.
  (** [rd x]: the number read from the text written for [x]. *)
  Variable rd : R -> val.

  Definition data_names : list str := map lit ["HTC"; "Beta"; "TauX"; "TauY"; "TauZ"; "RecoveryFactor"]%string.
  Definition data_fields : list (cdata -> R) := [c_htc; c_beta; c_taux; c_tauy; c_tauz; c_rf].

  (** The values of a face: means of the values of its corners. *)
  Definition mean_row (z : fzone) (f : nat * nat * nat) (row : list val) : Prop :=
    let '(a, b, c) := f in
    exists na nb nc, nth_error (fz_nodes z) a = Some na /\ nth_error (fz_nodes z) b = Some nb /\ nth_error (fz_nodes z) c = Some nc /\
      row = map (fun g => rd ((g (cn_data na) + g (cn_data nb) + g (cn_data nc)) / 3)%R) data_fields.

  (** The zone of the file for a zone in memory. *)
  Definition exported (z : fzone) (zr : zone_rec) : Prop :=
    zr_name zr = fz_title z /\ zr_vars zr = data_names /\
    zr_pts zr = map (fun n => (rd (vx (cn_point n)), rd (vy (cn_point n)), rd (vz (cn_point n)))) (fz_nodes z) /\
    zr_conn zr = fz_faces z /\ Forall2 (mean_row z) (fz_faces z) (zr_data zr).

  (** Corners of faces are nodes of the zone; the title can be written between quotes. *)
  Definition exportable (z : fzone) : Prop :=
    Forall (fun f => let '(a, b, c) := f in
      a < List.length (fz_nodes z) /\ b < List.length (fz_nodes z) /\ c < List.length (fz_nodes z)) (fz_faces z) /\
    (forall x, In x (fz_title z) -> x <> eqsign /\ x <> nl /\ x <> cr).
End Export.
