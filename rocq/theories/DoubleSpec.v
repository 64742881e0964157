(** Specification vocabulary for the floating point numbers. *)

From Coq Require Import ZArith Reals Ascii String Bool List.
From Flocq Require Import Core.Core IEEE754.BinarySingleNaN.
From Verif Require Import Py Heap Double.
Import ListNotations.
Open Scope list_scope.
Open Scope Z_scope.

(** An exponent part of a decimal notation: nothing, or a letter e, a sign or none, and digits. *)
Definition exponent_text (e : Z) (t : str) : Prop :=
  t = [] /\ e = 0 \/
  exists l sg ds, t = l ++ sg ++ ds /\ (l = lit "e" \/ l = lit "E") /\ all_digits ds = true /\
    (sg = lit "-" /\ e = - digits_val ds \/ (sg = [] \/ sg = lit "+") /\ e = digits_val ds).

(** [t] is a decimal notation of [m * 10 ^ k], with a minus sign if [neg]: digits with or without a point and an exponent part. *)
Definition decimal_text (neg : bool) (m k : Z) (t : str) : Prop :=
  exists sg a pt b ex e, t = sg ++ a ++ pt ++ b ++ ex /\
    (sg = lit "-" /\ neg = true \/ (sg = [] \/ sg = lit "+") /\ neg = false) /\
    forallb is_digit (a ++ b) = true /\ a ++ b <> [] /\ (pt = lit "." \/ pt = [] /\ b = []) /\ exponent_text e ex /\
    m = digits_val (a ++ b) /\ k = e - Z.of_nat (List.length b).

(** [10 ^ k]. *)
Definition ten (k : Z) : R := bpow radix10 k.

(** The real number with sign. *)
Definition signed (neg : bool) (x : R) : R := if neg then (- x)%R else x.

(** The number nearest to [x] of those which are multiples of 2 ^ -1074 with 53 significant binary digits (the format of doubles without
    upper bound), of two nearest the one with even last digit. *)
Definition rounded (x : R) : R := round radix2 (FLT_exp (-1074) 53) ZnearestE x.

(** [v] is the double nearest to [x] with sign: 0 <= [x]. *)
Definition nearest_double (neg : bool) (x : R) (v : double) : Prop :=
  ((x = 0)%R -> v = B754_zero neg) /\
  ((0 < x)%R -> (rounded x < bpow radix2 1024)%R -> is_finite v = true /\ B2R v = signed neg (rounded x) /\ Bsign v = neg) /\
  ((0 < x)%R -> (bpow radix2 1024 <= rounded x)%R -> v = B754_infinity neg).

(** The number of units of the [p]-th decimal place nearest to [x], of two nearest the even one. *)
Definition places (p : Z) (x : R) : Z := ZnearestE (x * ten p).

(** The number of ten-billionths nearest to [x], of two nearest the even one. *)
Definition units (x : double) : Z := ZnearestE (B2R x * ten 10).

(** All coordinates of a point are finite. *)
Definition finite_pt (p : @pt DoubleOps) : Prop := let '(x, y, z) := p in
  is_finite (proj1_sig x) = true /\ is_finite (proj1_sig y) = true /\ is_finite (proj1_sig z) = true.

(** Each coordinate of [p] and that of [q] are nearest to the same ten-billionth. *)
Definition same_units (p q : @pt DoubleOps) : Prop := let '(x, y, z) := p in let '(x', y', z') := q in
  units (proj1_sig x) = units (proj1_sig x') /\ units (proj1_sig y) = units (proj1_sig y') /\ units (proj1_sig z) = units (proj1_sig z').

(** Each coordinate of [p] and that of [q] differ by at most [d]. *)
Definition within (d : R) (p q : @pt DoubleOps) : Prop := let '(x, y, z) := p in let '(x', y', z') := q in
  (Rabs (B2R (proj1_sig x) - B2R (proj1_sig x')) <= d /\ Rabs (B2R (proj1_sig y) - B2R (proj1_sig y')) <= d /\
   Rabs (B2R (proj1_sig z) - B2R (proj1_sig z')) <= d)%R.
