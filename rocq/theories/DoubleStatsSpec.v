(** Vocabulary of the statements about the printed percentages (C127). *)

From Coq Require Import ZArith Reals Ascii String List.
From Verif Require Import Py DoubleSpec.
Import ListNotations.
Open Scope list_scope.

(** [m] hundredths of a percent are as near as possible to the share of [k] in [n]. *)
Definition nearest_share (k n m : Z) : Prop :=
  (forall m' : Z, Rabs (IZR m / 100 - 100 * IZR k / IZR n) <= Rabs (IZR m' / 100 - 100 * IZR k / IZR n))%R.

(** [t] is a number with two places after the point and no sign, of [m] hundredths. *)
Definition two_places (m : Z) (t : str) : Prop :=
  decimal_text false m (-2) t /\ exists a b c, t = a ++ lit "." ++ [b; c] /\ a <> [].

(** The line about the edges, with the texts of the percentages. *)
Definition edges_line (b i c : nat) (tb ti tc : str) : str :=
  lit "edges stats: " ++ nat_str b ++ lit " border (" ++ tb ++ lit "%), " ++ nat_str i ++ lit " inner (" ++ ti ++ lit "%), " ++
  nat_str c ++ lit " cross (" ++ tc ++ lit "%)".

(** The line about the distribution of faces, with the text of the deviation. *)
Definition deviation_line (mx : nat) (t : str) : str := lit "  ~ max zone faces " ++ nat_str mx ++ lit ", faces distribution deviation : " ++ t ++ lit "%".
