(** The line about the edges printed by Grid.print_info, with the doubles of Python: gsu/zones_adjacency_matrix.py:116-135. *)

From Coq Require Import ZArith NArith Ascii String Bool List.
From Flocq Require Import Core.Core IEEE754.BinarySingleNaN.
From Verif Require Import Py Heap Zam Double.
Import ListNotations.
Open Scope list_scope.
Open Scope Z_scope.

(** `100.0 * k / n`, zones_adjacency_matrix.py:118: the counts become doubles, the nearest ones.  (Simplification: counts that are too great
    for a double, which give OverflowError in Python, give infinities here.) *)
Definition percentage (k n : Z) : double := divided (times (nearest false 100 1) (of_decimal false k 0)) (of_decimal false n 0).

(** The text of [m] hundredths with a minus sign if [s]; [0 <= m] (part of '{:.2f}', zones_adjacency_matrix.py:132-135). *)
Definition hundredths_text (s : bool) (m : Z) : str :=
  sign_text s ++ N_str (Z.to_N (m / 10 ^ 2)) ++ lit "." ++ pad0 2 (N_str (Z.to_N (m mod 10 ^ 2))).

(** `'{:.2f}'.format(x)`, zones_adjacency_matrix.py:132-135. *)
Definition write_hundredths (x : double) : str :=
  match x with
  | B754_nan => lit "nan"
  | B754_infinity s => sign_text s ++ lit "inf"
  | B754_zero s => hundredths_text s 0
  | B754_finite s m e _ => let '(a, b) := fraction m e in hundredths_text s (round_div (a * 10 ^ 2) b)
  end.

(** ZonesAdjacencyMatrix.edges_statistics_string, zones_adjacency_matrix.py:124-135; the counts and ZeroDivisionError are those of
    edges_statistics (Zam.v), the percentages are computed with doubles (zones_adjacency_matrix.py:118). *)
Definition edges_statistics_string (a : zam) : res str :=
  do s <- edges_statistics a;
  let '(ec, bec, iec, cec) := fst s in
  let part (k : nat) := write_hundredths (percentage (Z.of_nat k) (Z.of_nat ec)) in
  Ok (lit "edges stats: " ++ nat_str bec ++ lit " border (" ++ part bec ++ lit "%), " ++
      nat_str iec ++ lit " inner (" ++ part iec ++ lit "%), " ++ nat_str cec ++ lit " cross (" ++ part cec ++ lit "%)").
