(** The floating point numbers of Python: IEEE 754 binary64, with the text forms and the rounding used by the
    grid code.  Nothing here is a line of /repo; the definitions model the constructs of Python that gsu/zone.py:94-116,
    gsu/face.py:63-80, gsu/grid.py:471-584, gsu/node.py:30, geom/vect.py:178-186, 204-260, 296-338, 447-467 and
    gsu/face.py:124-133 use on numbers.  The numbers themselves and the arithmetic are those of Flocq. *)

From Coq Require Import ZArith NArith Ascii String Bool List Floats.SpecFloat.
From Flocq Require Import Core.Zaux Core.Defs Core.Digits Calc.Bracket Calc.Div IEEE754.BinarySingleNaN.
From Verif Require Import Py Heap.
Import ListNotations.
Open Scope list_scope.
Open Scope Z_scope.

(** A Python float, as read in gsu/grid.py:538, 549. *)
Definition double : Type := binary_float 53 1024.

#[export] Instance prec53 : FLX.Prec_gt_0 53 := eq_refl.
#[export] Instance prec_emax : Prec_lt_emax 53 1024 := eq_refl.

(** A number of the library with its range checked (part of `float(xi)`, gsu/grid.py:538, 549). *)
Definition of_spec (z : spec_float) : double :=
  match z with
  | S754_zero s => B754_zero s
  | S754_infinity s => B754_infinity s
  | S754_nan => B754_nan
  | S754_finite s m e =>
      match bool_dec (bounded 53 1024 m e) true with
      | left H => B754_finite s m e H
      | right _ => B754_nan
      end
  end.

(** The double nearest to [a / b] (ties to even), negated if [s]; [a] and [b] are positive.  Infinity if there is none.
    (Part of `float(xi)`, gsu/grid.py:538, 549, and of `round`, geom/vect.py:186.) *)
Definition nearest (s : bool) (a b : Z) : double :=
  let '(q, e, l) := Fdiv (fexp 53 1024) (Float radix2 a 0) (Float radix2 b 0) in
  of_spec (binary_round_aux 53 1024 mode_NE s q e l).

(** The double nearest to [m * 10 ^ k], negated if [s]; [0 <= m] (part of `float(xi)`, gsu/grid.py:538, 549). *)
Definition of_decimal (s : bool) (m k : Z) : double :=
  if m =? 0 then B754_zero s
  else if 0 <=? k then nearest s (m * 10 ^ k) 1 else nearest s m (10 ^ (- k)).

(* ------------------------------------------------------------------ *)
(** * float(s) *)

(** The digits at the beginning of a text, and the rest (part of `float(xi)`, gsu/grid.py:538, 549). *)
Fixpoint span_digits (s : str) : str * str :=
  match s with
  | c :: r => if is_digit c then let '(a, b) := span_digits r in (c :: a, b) else ([], s)
  | [] => ([], [])
  end.

(** The exponent part: nothing, or `e`, a sign or none, and digits (part of `float(xi)`, gsu/grid.py:538, 549). *)
Definition read_exp (s : str) : option Z :=
  match s with
  | [] => Some 0
  | c :: r =>
      if Ascii.eqb c "e"%char || Ascii.eqb c "E"%char then
        match r with
        | [] => None
        | d :: r' =>
            if Ascii.eqb d "-"%char then if all_digits r' then Some (- digits_val r') else None
            else if Ascii.eqb d "+"%char then if all_digits r' then Some (digits_val r') else None
            else if all_digits r then Some (digits_val r) else None
        end
      else None
  end.

(** A number without sign: digits with or without a point, and an exponent part; the result is [(m, k)] for [m * 10 ^ k]
    (part of `float(xi)`, gsu/grid.py:538, 549). *)
Definition read_number (s : str) : option (Z * Z) :=
  let '(a, r) := span_digits s in
  let '(b, r') := match r with
                  | c :: r1 => if Ascii.eqb c "."%char then span_digits r1 else ([], r)
                  | [] => ([], r)
                  end in
  match a ++ b with
  | [] => None
  | _ => match read_exp r' with
         | Some x => Some (digits_val (a ++ b), x - Z.of_nat (List.length b))
         | None => None
         end
  end.

(** A text without blanks around it and without sign (part of `float(xi)`, gsu/grid.py:538, 549). *)
Definition read_unsigned (s : bool) (t : str) : option double :=
  if str_eqb t (lit "inf") then Some (B754_infinity s)
  else match read_number t with
       | Some (m, k) => Some (of_decimal s m k)
       | None => None
       end.

(** `float(t)` of gsu/grid.py:538, 549, 1158; [None] is ValueError.  (Simplification: 'nan' and the other spellings of infinity, and underscores between digits,
    are rejected here.) *)
Definition read_double (t : str) : option double :=
  match strip t with
  | [] => None
  | c :: r =>
      if Ascii.eqb c "-"%char then read_unsigned true r
      else if Ascii.eqb c "+"%char then read_unsigned false r
      else read_unsigned false (c :: r)
  end.

(* ------------------------------------------------------------------ *)
(** * '{0:.18e}'.format(x) *)

(** [a / b] rounded to an integer, ties to even; [0 <= a], [0 < b] (part of the format of gsu/zone.py:100, 115, and of `round`, geom/vect.py:186). *)
Definition round_div (a b : Z) : Z :=
  let q := a / b in
  let r := a mod b in
  match 2 * r ?= b with
  | Lt => q
  | Gt => q + 1
  | Eq => if Z.even q then q else q + 1
  end.

(** Ten (the base of the format of gsu/zone.py:100, 115). *)
Definition radix10 : radix := Build_radix 10 eq_refl.

(** [a / b] divided by [10 ^ k], as a fraction (part of the format of gsu/zone.py:100, 115). *)
Definition scale (a b k : Z) : Z * Z := (a * 10 ^ Z.max 0 (- k), b * 10 ^ Z.max 0 k).

(** The decimal exponent of [a / b]: [10 ^ k <= a / b < 10 ^ (k + 1)] (part of the format of gsu/zone.py:100, 115). *)
Definition dec_exp (a b : Z) : Z :=
  let k := Zdigits radix10 a - Zdigits radix10 b in
  let '(a', b') := scale a b k in
  if b' <=? a' then k else k - 1.

(** The nineteen leading digits of [a / b], rounded, and the exponent of the first (part of the format of gsu/zone.py:100, 115). *)
Definition sci (a b : Z) : Z * Z :=
  let k := dec_exp a b in
  let '(a', b') := scale a b (k - 18) in
  let d := round_div a' b' in
  if d =? 10 ^ 19 then (10 ^ 18, k + 1) else (d, k).

(** The text of [d * 10 ^ (k - 18)], [d] of at most nineteen digits (part of the format of gsu/zone.py:100, 115). *)
Definition sci_text (d k : Z) : str :=
  match pad0 19 (N_str (Z.to_N d)) with
  | c :: r => c :: lit "." ++ r
  | [] => []
  end ++ lit "e" ++ (if k <? 0 then lit "-" else lit "+") ++ pad0 2 (N_str (Z.to_N (Z.abs k))).

(** A finite number as a fraction (part of the format of gsu/zone.py:100, 115, and of `round`, geom/vect.py:186). *)
Definition fraction (m : positive) (e : Z) : Z * Z := (Zpos m * 2 ^ Z.max 0 e, 2 ^ Z.max 0 (- e)).

(** The sign of a number (part of the format of gsu/zone.py:100, 115). *)
Definition sign_text (s : bool) : str := if s then lit "-" else [].

(** `'{0:.18e}'.format(x)` of gsu/zone.py:100, 115, gsu/face.py:76. *)
Definition write_double (x : double) : str :=
  match x with
  | B754_nan => lit "nan"
  | B754_infinity s => sign_text s ++ lit "inf"
  | B754_zero s => sign_text s ++ sci_text 0 0
  | B754_finite s m e _ =>
      let '(a, b) := fraction m e in
      let '(d, k) := sci a b in
      sign_text s ++ sci_text d k
  end.

(* ------------------------------------------------------------------ *)
(** * round(x, 10) and arithmetic *)

(** `round(x, 10)` of gsu/node.py:30, geom/vect.py:186: the double nearest to the nearest multiple of 10 ^ -10. *)
Definition round10 (x : double) : double :=
  match x with
  | B754_finite s m e _ =>
      let '(a, b) := fraction m e in
      of_decimal s (round_div (a * 10 ^ 10) b) (-10)
  | _ => x
  end.

(** A number up to `==`, as the rounded coordinates are compared and hashed in gsu/grid.py:190-224: zero without its sign. *)
Definition up_to_eq (x : double) : spec_float :=
  match x with
  | B754_zero _ => S754_zero false
  | _ => B2SF x
  end.

(** `==` of rounded coordinates, gsu/grid.py:190-224. *)
Definition spec_dec : forall x y : spec_float, {x = y} + {x <> y}.
Proof. repeat decide equality. Defined.

(** The numbers which are not NaN, as read in gsu/grid.py:538, 549.  (Simplification: a file with nan is not modelled.) *)
Definition number : Type := { x : double | is_nan x = false }.

(** A result of the arithmetic of geom/vect.py:204-260, 296-338.  (Simplification: where Python gives NaN, as inf - inf, this is 0.0.) *)
Definition num (x : double) : number :=
  match bool_dec (is_nan x) false with
  | left H => exist _ x H
  | right _ => exist _ (B754_zero false) eq_refl
  end.

(** `+`, `-`, `*`, `/` and math.sqrt of geom/vect.py:204-260, 296-338. *)
Definition plus (x y : double) : double := Bplus mode_NE x y.
Definition minus (x y : double) : double := Bminus mode_NE x y.
Definition times (x y : double) : double := Bmult mode_NE x y.
Definition divided (x y : double) : double := Bdiv mode_NE x y.
Definition root (x : double) : double := Bsqrt mode_NE x.

(** Doubles as the numbers of the grid code: what gsu/node.py:30, gsu/zone.py:100, 115, gsu/grid.py:538, 549, geom/vect.py:204-260,
    296-338, 447-467 and gsu/face.py:124-133 do with them. *)
Definition DoubleOps : FloatOps := {|
  val := number;
  val0 := exist _ (B754_zero false) eq_refl;
  rval := spec_float;
  rnd1 := fun x => up_to_eq (round10 (proj1_sig x));
  rval_dec := spec_dec;
  fmt := fun x => write_double (proj1_sig x);
  prs := fun s => match read_double s with Some x => Some (num x) | None => None end;
  vltb := fun x y => Bltb (proj1_sig x) (proj1_sig y);
  (* Vect.dist_to, vect.py:296-338 *)
  vdist := fun p q => match p, q with (x, y, z), (x', y', z') =>
    let dx := minus (proj1_sig x) (proj1_sig x') in
    let dy := minus (proj1_sig y) (proj1_sig y') in
    let dz := minus (proj1_sig z) (proj1_sig z') in
    num (root (plus (plus (times dx dx) (times dy dy)) (times dz dz))) end;
  (* (a + b) / 2, vect.py:204-213, 250-258, 447-467 *)
  vmid := fun p q => match p, q with (x, y, z), (x', y', z') =>
    let half u v := num (times (plus (proj1_sig u) (proj1_sig v)) (divided (nearest false 1 1) (nearest false 2 1))) in
    (half x x', half y y', half z z') end;
  (* Face.get_center, face.py:124-133 *)
  vcen := fun p q r => match p, q, r with (x, y, z), (x', y', z'), (x'', y'', z'') =>
    let third u v w := num (divided (plus (plus (proj1_sig u) (proj1_sig v)) (proj1_sig w)) (nearest false 3 1)) in
    (third x x' x'', third y y' y'', third z z' z'') end
|}.
