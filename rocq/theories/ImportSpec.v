(** Specification vocabulary for Grid.Import of the converter. *)

From Coq Require Import ZArith String List.
From Verif Require Import Py Heap GridSpec MpiSpec AnsysSpec Import.
Import ListNotations.
Open Scope list_scope.
Open Scope nat_scope.

(** The variables Import expects after the coordinates. *)
Definition eight : list str := map lit ["T"; "Hw"; "Hi"; "HTC"; "Beta"; "TauX"; "TauY"; "TauZ"]%string.

(** The name does not contain the words that Import takes for headers. *)
Definition quiet (name : str) : Prop :=
  forall w, In w ["EXPORT_MODE"; "TITLE"; "VARIABLES"]%string -> ~ occurs (lit w) name.

Section Import.
  Context {F : FloatOps}.

  (** The corners of an imported face. *)
  Definition icorners (z : izone) (f : iface) : list (option pt) :=
    let '(a, b, c) := if_nodes f in [nth_error (iz_pts z) a; nth_error (iz_pts z) b; nth_error (iz_pts z) c].

  (** The imported zone is the zone of the grid: title, nodes in order, faces in order with
      their corners and values. *)
  Definition imported (h : heap) (z : nat) (iz : izone) : Prop :=
    iz_title iz = z_name h z /\ iz_pts iz = map (n_p h) (z_nodes h z) /\
    Forall2 (fun f fc => icorners iz fc = map (fun n => Some (n_p h n)) (f_nodes h f) /\
        [if_htc fc; if_beta fc; if_taux fc; if_tauy fc; if_tauz fc] =
          map (fun k => var_value h f (lit k)) ["HTC"; "Beta"; "TauX"; "TauY"; "TauZ"]%string)
      (z_faces h z) (iz_faces iz).
End Import.
