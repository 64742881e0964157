(** Vocabulary of the statements about exported files that cannot be loaded (C124). *)

From Coq Require Import ZArith Reals.
From Verif Require Import Geom DoubleSpec.

(** Each coordinate of the two points has the same nearest number of units of the [p]-th decimal place. *)
Definition same_places (p : Z) (a b : vect) : Prop :=
  places p (vx a) = places p (vx b) /\ places p (vy a) = places p (vy b) /\ places p (vz a) = places p (vz b).

(** Some coordinate of the two points differs by at least [d]. *)
Definition differ (d : R) (a b : vect) : Prop :=
  (d <= Rabs (vx a - vx b) \/ d <= Rabs (vy a - vy b) \/ d <= Rabs (vz a - vz b))%R.
