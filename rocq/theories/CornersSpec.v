(** Specification vocabulary for planes and corners of triangles. *)

From Coq Require Import Reals List.
From Verif Require Import Py Geom.
Import ListNotations.
Open Scope R_scope.

(** The plane through the corners of a triangle. *)
Definition in_plane (t : triangle) (p : vect) : Prop :=
  exists s r, p = vadd (ta t) (vadd (vmul (vsub (tb t) (ta t)) s) (vmul (vsub (tc t) (ta t)) r)).

(** The corners do not lie on one line. *)
Definition solid (t : triangle) : Prop := cross (vsub (tb t) (ta t)) (vsub (tc t) (ta t)) <> V3 0 0 0.

(** [x] degrees is the angle between two vectors. *)
Definition degrees (u v : vect) (x : R) : Prop :=
  u <> V3 0 0 0 /\ v <> V3 0 0 0 /\ 0 <= x <= 180 /\ vmod u * vmod v * cos (x * (PI / 180)) = dot u v.

(** The three corners of a triangle are [x], [y] and [z] degrees. *)
Definition corners_of (t : triangle) (x y z : R) : Prop :=
  degrees (vsub (tb t) (ta t)) (vsub (tc t) (ta t)) x /\
  degrees (vsub (ta t) (tb t)) (vsub (tc t) (tb t)) y /\
  degrees (vsub (ta t) (tc t)) (vsub (tb t) (tc t)) z.

(** The corners are three different points. *)
Definition three_points (t : triangle) : Prop := ta t <> tb t /\ tb t <> tc t /\ tc t <> ta t.
