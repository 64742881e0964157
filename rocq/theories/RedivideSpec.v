(** Specification vocabulary for the decomposition of a grid file. *)

From Coq Require Import ZArith Bool List.
From Verif Require Import Py Heap FileSpec.
Import ListNotations.
Open Scope list_scope.

Section RedivideSpec.
  Context {F : FloatOps}.

  (** The value of the variable [v] in a row of values of the variables [vars]; 0 if it is not there. *)
  Fixpoint value_of (vars : list str) (row : list val) (v : str) : val :=
    match vars, row with
    | w :: vars', x :: row' => if str_dec v w then x else value_of vars' row' v
    | _, _ => val0
    end.

  (** The variables of the first zone of a file that has faces. *)
  Fixpoint first_vars (zs : list zone_rec) : list str :=
    match zs with
    | [] => []
    | zr :: zs' => match zr_conn zr with [] => first_vars zs' | _ :: _ => zr_vars zr end
    end.

  (** All faces of a file: the rounded corners in order and the values of the variables [vars]. *)
  Definition listed (vars : list str) (zs : list zone_rec) : list (list (option rc) * list val) :=
    flat_map (fun zr => map (fun rt => (map (option_map rnd) (corners zr (snd rt)), map (value_of (zr_vars zr) (fst rt)) vars))
                          (combine (zr_data zr) (zr_conn zr))) zs.

  (** All faces of a file: the rounded corners in order and the row of values as it is. *)
  Definition listed_rows (zs : list zone_rec) : list (list (option rc) * list val) :=
    flat_map (fun zr => map (fun rt => (map (option_map rnd) (corners zr (snd rt)), fst rt)) (combine (zr_data zr) (zr_conn zr))) zs.

  (** The values [a], [b], [c] of a face are increased by three random numbers drawn for one face. *)
  Definition redrawn_entry (add : val -> val -> val) (rand : nat -> val * val * val) (x y : list (option rc) * list val) : Prop :=
    fst y = fst x /\ exists a b c f r1 r2 r3, snd x = [a; b; c] /\ rand f = (r1, r2, r3) /\ snd y = [add a r1; add b r2; add c r3].
End RedivideSpec.
