(** Vocabulary for the properties of laws by tables.  Nothing here refers to the model. *)

From Coq Require Import Reals List.
From Verif Require Import Py.
Import ListNotations.
Open Scope list_scope.
Open Scope R_scope.

(** [a] and [b] are rows of the table, one after the other. *)
Definition next_to (rows : list (R * R)) (a b : R * R) : Prop := exists u v, rows = u ++ a :: b :: v.

(** Every number is smaller than the next one. *)
Definition ascending (xs : list R) : Prop := forall u a b v, xs = u ++ a :: b :: v -> a < b.

(** The sum of the squares of the deviations of [f] from the rows of the table. *)
Definition deviation (f : R -> R) (rows : list (R * R)) : R :=
  fold_right (fun r s => (f (fst r) - snd r) * (f (fst r) - snd r) + s) 0 rows.

(** The polynomial with these coefficients, the highest power first. *)
Definition poly (cs : list R) (x : R) : R := fold_left (fun s c => s * x + c) cs 0.

(** The parameters that [fit] finds for this function and this table have the least sum of squares. *)
Definition least_squares (fit : (R -> list R -> res R) -> list R -> list R -> res (list R)) (func : R -> list R -> res R) (xs ys : list R) : Prop :=
  forall ps, fit func xs ys = Ok ps ->
    exists g, (forall x, func x ps = Ok (g x)) /\
      forall ps' g', (forall x, func x ps' = Ok (g' x)) -> deviation g (combine xs ys) <= deviation g' (combine xs ys).

(** The text [a] is before [b] in an alphabetical listing: at the first place where they differ
    the character of [a] is smaller, or [a] ends there. *)
Definition listed_before (a b : str) : Prop :=
  exists p, (exists y v, a = p /\ b = p ++ y :: v) \/
            (exists x y u v, a = p ++ x :: u /\ b = p ++ y :: v /\ (Ascii.nat_of_ascii x < Ascii.nat_of_ascii y)%nat).
