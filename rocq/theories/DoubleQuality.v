(** The lines about the quality factors of zones printed by Grid.print_info, with the doubles of Python: gsu/grid.py:158-177, gsu/zone.py:81-88. *)

From Coq Require Import ZArith NArith Ascii String Bool List.
From Flocq Require Import Core.Core IEEE754.BinarySingleNaN.
From Verif Require Import Py Heap Info Double.
Import ListNotations.
Open Scope list_scope.
Open Scope Z_scope.

(** Zone.zone_quality_factor, zone.py:81-88: np.sqrt of the number of faces divided by the number of outer edges.  np.sqrt gives a numpy double, its division by
    zero gives inf or nan (with a warning, which is left out).  (Simplification: the counts become doubles first, which changes nothing below 2^53.) *)
Definition zone_quality_factor (fc oc : Z) : double := divided (root (of_decimal false fc 0)) (of_decimal false oc 0).

(** The text of [m] thousandths with a minus sign if [s]; [0 <= m] (part of '{:.3f}', grid.py:161, 176). *)
Definition thousandths_text (s : bool) (m : Z) : str :=
  sign_text s ++ N_str (Z.to_N (m / 10 ^ 3)) ++ lit "." ++ pad0 3 (N_str (Z.to_N (m mod 10 ^ 3))).

(** `'{:.3f}'.format(x)`, grid.py:161, 176. *)
Definition write_thousandths (x : double) : str :=
  match x with
  | B754_nan => lit "nan"
  | B754_infinity s => sign_text s ++ lit "inf"
  | B754_zero s => thousandths_text s 0
  | B754_finite s m e _ => let '(a, b) := fraction m e in thousandths_text s (round_div (a * 10 ^ 3) b)
  end.

(** The line about a zone, grid.py:160-164; the name and the counts are those of [zone_line] (Info.v). *)
Definition quality_line {F : FloatOps} (h : heap) (z : nat) : res str :=
  do l <- zone_line h z;
  let '(nm, fc, oc) := l in
  Ok (lit "    " ++ nm ++ lit " : " ++ nat_str fc ++ lit " faces, " ++ nat_str oc ++ lit " outer edges, QF = " ++
      write_thousandths (zone_quality_factor (Z.of_nat fc) (Z.of_nat oc))).

(** `min(l)` and `max(l)` of a list of numpy doubles, grid.py:176-177: the first one that no later one is less (greater) than, in the order of the list; comparisons with
    nan are false.  An empty list is ValueError. *)
Definition py_fmin (l : list double) : res double :=
  match l with [] => Raise EValueError | x :: r => Ok (fold_left (fun m y => if Bltb y m then y else m) r x) end.
Definition py_fmax (l : list double) : res double :=
  match l with [] => Raise EValueError | x :: r => Ok (fold_left (fun m y => if Bltb m y then y else m) r x) end.

(** The line '~ min/max quality factor', grid.py:167, 175-177. *)
Definition quality_bounds {F : FloatOps} (h : heap) : res str :=
  do ls <- rmap (zone_line h) (g_zones h);
  let qs := map (fun l : str * nat * nat => zone_quality_factor (Z.of_nat (snd (fst l))) (Z.of_nat (snd l))) ls in
  do lo <- py_fmin qs;
  do hi <- py_fmax qs;
  Ok (lit "  ~ min/max quality factor : " ++ write_thousandths lo ++ lit ", " ++ write_thousandths hi).
