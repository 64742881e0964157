(** Specification vocabulary for utils.py, independent of the model functions. *)

From Coq Require Import ZArith Ascii String Bool List.
From Verif Require Import Py Utils.
Import ListNotations.
Open Scope list_scope.

(** [Leaves e r]: [r] is the left-to-right list of leaves of [e]. *)
Inductive Leaves {A : Type} : nested A -> list A -> Prop :=
| Leaves_leaf : forall a, Leaves (Leaf a) [a]
| Leaves_nest : forall l r, LeavesL l r -> Leaves (Nest l) r
with LeavesL {A : Type} : list (nested A) -> list A -> Prop :=
| LeavesL_nil : LeavesL [] []
| LeavesL_cons : forall e l re rl, Leaves e re -> LeavesL l rl -> LeavesL (e :: l) (re ++ rl).

Scheme Leaves_mut := Induction for Leaves Sort Prop
with LeavesL_mut := Induction for LeavesL Sort Prop.

(** A timestamp: twelve decimal digits. *)
Definition twelve_digits (t : str) : Prop := length t = 12%nat /\ forallb is_digit t = true.

(** The timestamp field of a crys txt file name: the twelve characters before
    the four characters of the extension. *)
Definition file_ts (f : str) : str := py_slice f (-16) (-4).

(** Distinct elements in the order of their first occurrences. *)
Definition first_occ {A} (dec : forall x y : A, {x = y} + {x <> y}) (l : list A) : list A :=
  rev (nodup dec (rev l)).
