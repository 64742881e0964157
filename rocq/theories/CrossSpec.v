(** Specification vocabulary for intersections of triangles. *)

From Coq Require Import Reals List Permutation.
From Verif Require Import Geom GeomSpec.
Import ListNotations.
Open Scope R_scope.

(** [x] is a point of the triangle. *)
Definition in_tri (t : triangle) (x : vect) : Prop := in_triangle (ta t) (tb t) (tc t) x.

(** The sides of a triangle. *)
Definition sides (t : triangle) : list segment := [Seg (ta t) (tb t); Seg (tb t) (tc t); Seg (tc t) (ta t)].

(** No side of one triangle is (almost) parallel to the plane of the other one. *)
Definition general (t u : triangle) : Prop :=
  (forall s, In s (sides u) -> eps10 <= Rabs (spanned t s)) /\ (forall s, In s (sides t) -> eps10 <= Rabs (spanned u s)).

(** [x] is a point of a side of one triangle and a point of the other triangle. *)
Definition crossing (t u : triangle) (x : vect) : Prop :=
  (exists s, In s (sides u) /\ common t s x) \/ (exists s, In s (sides t) /\ common u s x).

(** The number of corners of a triangle that are needed to express the point: one for
    a corner, two for a point of a side, three for an inner point. *)
Definition weights (t : triangle) (x : vect) (u v w : R) : Prop :=
  u + v + w = 1 /\
  vx x = u * vx (ta t) + v * vx (tb t) + w * vx (tc t) /\
  vy x = u * vy (ta t) + v * vy (tb t) + w * vy (tc t) /\
  vz x = u * vz (ta t) + v * vz (tb t) + w * vz (tc t).

(** The points are the corners of the triangle, in any order. *)
Definition same_corners (t u : triangle) : Prop := forall x, In x (points t) <-> In x (points u).

(** Sorting keeps the elements of a list. *)
Definition keeps_all (srt : list vect -> list vect) : Prop := forall l, Permutation (srt l) l.

(** All sides of the triangle are shorter than [h]. *)
Definition sides_below (h : R) (t : triangle) : Prop := forall s, In s (sides t) -> dist_to (sa s) (sb s) < h.

(** The segment does not lie in the plane of the triangle. *)
Definition off_plane (t : triangle) (s : segment) : Prop :=
  exists p, In p [sa s; sb s] /\ dot (cross (vsub (tb t) (ta t)) (vsub (tc t) (ta t))) (vsub p (ta t)) <> 0.

(** One for a weight that is not zero. *)
Definition some_weight (u : R) : nat := if Req_EM_T u 0 then 0 else 1.

(** Coordinates are equal or differ by at least three tolerances. *)
Definition wide (a b : vect) : Prop :=
  (vx a = vx b \/ 3 * eps10 <= Rabs (vx a - vx b)) /\ (vy a = vy b \/ 3 * eps10 <= Rabs (vy a - vy b)) /\
  (vz a = vz b \/ 3 * eps10 <= Rabs (vz a - vz b)).
