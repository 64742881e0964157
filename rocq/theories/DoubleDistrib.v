(** The line about the distribution of faces printed by Grid.print_info, with the doubles of Python: gsu/grid.py:168-174. *)

From Coq Require Import ZArith Ascii String Bool List.
From Flocq Require Import Core.Core IEEE754.BinarySingleNaN.
From Verif Require Import Py Heap Zam Info Double DoubleStats.
Import ListNotations.
Open Scope list_scope.
Open Scope Z_scope.

(** ideal_mean, grid.py:168: the quotient of two integers is the double nearest to it.  (Simplification: the integers become doubles first, which changes
    nothing below 2^53.) *)
Definition ideal_mean (fc zc : Z) : double := divided (of_decimal false fc 0) (of_decimal false zc 0).

(** faces_distr_dev, grid.py:170. *)
Definition deviation (mx fc zc : Z) : double :=
  divided (times (nearest false 100 1) (minus (of_decimal false mx 0) (ideal_mean fc zc))) (ideal_mean fc zc).

(** The line '~ max zone faces', grid.py:171-174; the largest number of faces and ZeroDivisionError are those of [distribution] (Info.v), the deviation is
    computed with doubles. *)
Definition distribution_line {F : FloatOps} (h : heap) : res str :=
  do d <- distribution h;
  let mx := snd (fst d) in
  Ok (lit "  ~ max zone faces " ++ nat_str mx ++ lit ", faces distribution deviation : " ++
      write_hundredths (deviation (Z.of_nat mx) (Z.of_nat (faces_count h)) (Z.of_nat (zones_count h))) ++ lit "%").
