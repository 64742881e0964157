(** Specification vocabulary for the middle, the distance and the center computed with doubles. *)

From Coq Require Import ZArith Reals.
From Flocq Require Import Core.Core IEEE754.BinarySingleNaN.
From Verif Require Import Py Heap Double DoubleSpec.

(** The coordinates of a point as real numbers. *)
Definition rx (p : @pt DoubleOps) : R := let '(x, _, _) := p in B2R (proj1_sig x).
Definition ry (p : @pt DoubleOps) : R := let '(_, y, _) := p in B2R (proj1_sig y).
Definition rz (p : @pt DoubleOps) : R := let '(_, _, z) := p in B2R (proj1_sig z).

(** No coordinate is of absolute value greater than [b]. *)
Definition at_most (b : R) (p : @pt DoubleOps) : Prop := (Rabs (rx p) <= b /\ Rabs (ry p) <= b /\ Rabs (rz p) <= b)%R.

(** [m] is in the smallest box with [p] and [q]. *)
Definition in_box (p q m : @pt DoubleOps) : Prop :=
  (Rmin (rx p) (rx q) <= rx m <= Rmax (rx p) (rx q) /\ Rmin (ry p) (ry q) <= ry m <= Rmax (ry p) (ry q) /\
   Rmin (rz p) (rz q) <= rz m <= Rmax (rz p) (rz q))%R.

(** Some coordinate of [p] differs from that of [q] by more than [e]. *)
Definition apart (e : R) (p q : @pt DoubleOps) : Prop :=
  (e < Rabs (rx p - rx q) \/ e < Rabs (ry p - ry q) \/ e < Rabs (rz p - rz q))%R.
