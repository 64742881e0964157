(** The numbers written by the converter: `'%f ' % x`, convert/gsu_converter.py:418-444. *)

From Coq Require Import ZArith NArith Reals Ascii String Bool List.
From Flocq Require Import Core.Core IEEE754.BinarySingleNaN.
From Verif Require Import Py Heap Geom Double.
Import ListNotations.
Open Scope list_scope.
Open Scope Z_scope.

(** The text of [m] millionths with a minus sign if [s]; [0 <= m] (part of '%f', gsu_converter.py:418-444). *)
Definition fixed_text (s : bool) (m : Z) : str :=
  sign_text s ++ N_str (Z.to_N (m / 10 ^ 6)) ++ lit "." ++ pad0 6 (N_str (Z.to_N (m mod 10 ^ 6))).

(** `'%f' % x`, gsu_converter.py:418-444. *)
Definition write_fixed (x : double) : str :=
  match x with
  | B754_nan => lit "nan"
  | B754_infinity s => sign_text s ++ lit "inf"
  | B754_zero s => fixed_text s 0
  | B754_finite s m e _ => let '(a, b) := fraction m e in fixed_text s (round_div (a * 10 ^ 6) b)
  end.

(** The same for a real number, for the model of the converter over exact arithmetic (Ansys.v, gsu_converter.py:418-444).
    (Simplification: a zero has no sign.) *)
Definition fixed_real (x : R) : str := fixed_text (Rlt_bool x 0) (Z.abs (ZnearestE (x * bpow radix10 6))).

(** The number read back from it, gsu/grid.py:538, 549. *)
Definition read_real (x : R) : number := num (of_decimal (Rlt_bool x 0) (Z.abs (ZnearestE (x * bpow radix10 6))) (-6)).

(** A point written by Export and read back, gsu_converter.py:417-425, gsu/grid.py:538. *)
Definition at_point (p : vect) : @pt DoubleOps := (read_real (vx p), read_real (vy p), read_real (vz p)).
