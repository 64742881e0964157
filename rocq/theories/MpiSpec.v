(** Vocabulary for the properties of the MPI files and the exchange. *)

From Coq Require Import ZArith NArith Ascii String Bool List.
From Verif Require Import Py Heap GridSpec.
Import ListNotations.
Open Scope list_scope.

(** The numbers [ks] are the (zero-based) positions of the elements [xs] in [l]. *)
Definition positions {A} (l : list A) (xs : list A) (ks : list Z) : Prop :=
  Forall2 (fun x k => (0 <= k)%Z /\ nth_error l (Z.to_nat k) = Some x) xs ks.

(** The same for a list of rows. *)
Definition position_rows {A B} (l : list A) (row : B -> list A) (bs : list B) (kss : list (list Z)) : Prop :=
  Forall2 (fun b ks => positions l (row b) ks) bs kss.

(** Variables that the files for the MPI program declare after X, Y, Z and GloId. *)
Definition swim_vars : list str :=
  map lit ["T"; "Hw"; "Hi"; "HTC"; "Beta"; "MImp2"; "Vd2"; "TauX"; "TauY"; "TauZ";
           "RecoveryFactor"]%string.

(** Value of a variable on a face; a variable without value counts as 0.0. *)
Definition var_value {F : FloatOps} (h : heap) (f : nat) (k : str) : val :=
  match dget str_dec (f_data h f) k with Some v => v | None => val0 end.
