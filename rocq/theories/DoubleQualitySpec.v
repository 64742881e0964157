(** Vocabulary of C130: printed quality factors. *)

From Coq Require Import ZArith Reals Ascii String List.
From Verif Require Import Py Heap ZamSpec InfoSpec DoubleSpec DoubleQuality.
Import ListNotations.
Open Scope list_scope.

(** [m] thousandths are as near as possible to the square root of [k] divided by [n]. *)
Definition nearest_factor (k n : nat) (m : Z) : Prop :=
  (forall m' : Z, Rabs (IZR m / 1000 - sqrt (INR k) / INR n) <= Rabs (IZR m' / 1000 - sqrt (INR k) / INR n))%R.

(** [t] is a number with three places after the point and no sign, of [m] thousandths. *)
Definition three_places (m : Z) (t : str) : Prop :=
  decimal_text false m (-3) t /\ exists a b c d, t = a ++ lit "." ++ [b; c; d] /\ a <> [].

(** The line about a zone, with the text of the factor; the line with the least and the greatest one. *)
Definition factor_line (name : str) (fc oc : nat) (t : str) : str :=
  lit "    " ++ name ++ lit " : " ++ nat_str fc ++ lit " faces, " ++ nat_str oc ++ lit " outer edges, QF = " ++ t.
Definition bounds_line (t u : str) : str := lit "  ~ min/max quality factor : " ++ t ++ lit ", " ++ u.

(** The line printed about the zone [z] shows its faces and its outer edges (those that do not have both faces in the zone), and a factor that reads [t], as near as
    possible to the exact one; it is of [m] thousandths. *)
Definition shown_factor {F : FloatOps} (h : heap) (z : nat) (m : Z) (t : str) : Prop :=
  exists oc, counts (fun e => ~ inside_zone h z e) (z_edges h z) oc /\ quality_line h z = Ok (factor_line (z_name h z) (List.length (z_faces h z)) oc t) /\
    three_places m t /\ nearest_factor (List.length (z_faces h z)) oc m.
