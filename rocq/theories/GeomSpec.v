(** Specification vocabulary for geometry: points of triangles, segments and boxes. *)

From Coq Require Import Reals List.
From Verif Require Import Geom.
Import ListNotations.
Open Scope R_scope.

(** [x] is a point of the triangle with corners [a], [b], [c]. *)
Definition in_triangle (a b c x : vect) : Prop :=
  exists u v w, 0 <= u /\ 0 <= v /\ 0 <= w /\ u + v + w = 1 /\
    vx x = u * vx a + v * vx b + w * vx c /\
    vy x = u * vy a + v * vy b + w * vy c /\
    vz x = u * vz a + v * vz b + w * vz c.

(** [x] is a point of the segment from [p] to [q]. *)
Definition on_segment (p q x : vect) : Prop :=
  exists t, 0 <= t <= 1 /\
    vx x = (1 - t) * vx p + t * vx q /\
    vy x = (1 - t) * vy p + t * vy q /\
    vz x = (1 - t) * vz p + t * vz q.

(** [x] is a common point of the triangle and the segment. *)
Definition common (t : triangle) (s : segment) (x : vect) : Prop :=
  in_triangle (ta t) (tb t) (tc t) x /\ on_segment (sa s) (sb s) x.

(** Six times the volume spanned by two sides of the triangle and the segment; zero
    exactly if the segment is parallel to the plane of the triangle (or one of them is
    degenerate). *)
Definition spanned (t : triangle) (s : segment) : R :=
  let b := vsub (tb t) (ta t) in let c := vsub (tc t) (ta t) in let q := vsub (sb s) (sa s) in
  dot (cross b c) q.

(** [p] is a point of the box. *)
Definition in_box (b : box) (p : vect) : Prop :=
  minx b <= vx p <= maxx b /\ miny b <= vy p <= maxy b /\ minz b <= vz p <= maxz b.

(** All points of [b] are points of [b']. *)
Definition box_within (b b' : box) : Prop := forall p, in_box b p -> in_box b' p.

(** The triangles stored in a cloud and in its subclouds. *)
Fixpoint stored (c : cloud) : list triangle :=
  match c with Cloud ts ss _ =>
    ts ++ (fix go (l : list cloud) : list triangle := match l with [] => [] | d :: r => stored d ++ go r end) ss
  end.

(** [part d c]: [d] is [c] or a (sub)cloud inside [c]. *)
Inductive part (d : cloud) : cloud -> Prop :=
| part_self : part d d
| part_sub : forall ts ss b e, In e ss -> part d e -> part d (Cloud ts ss b).

(** A subcloud is either one triangle without subclouds, or two subclouds without
    triangles. *)
Definition leaf_or_pair (c : cloud) : Prop :=
  match c with Cloud ts ss _ =>
    (exists t, ts = [t] /\ ss = []) \/ (exists c1 c2, ts = [] /\ ss = [c1; c2])
  end.

(** Lexicographic order of coordinates. *)
Definition lex_lt (a b : vect) : Prop :=
  vx a < vx b \/ (vx a = vx b /\ (vy a < vy b \/ (vy a = vy b /\ vz a < vz b))).

(** Coordinates are equal or differ by at least the tolerance. *)
Definition apart (x y : R) : Prop := x = y \/ eps10 <= Rabs (x - y).
Definition vapart (a b : vect) : Prop := apart (vx a) (vx b) /\ apart (vy a) (vy b) /\ apart (vz a) (vz b).

(** The number of levels below the top of a cloud. *)
Fixpoint depth (c : cloud) : nat :=
  match c with Cloud _ ss _ =>
    (fix go (l : list cloud) : nat := match l with [] => 0%nat | d :: r => Nat.max (S (depth d)) (go r) end) ss
  end.

(** The axis along which the centroids of the triangles are spread the most. *)
Definition longest (l : list triangle) (k : nat) : Prop :=
  (k < 3)%nat /\ forall j t u, (j < 3)%nat -> In t l -> In u l -> exists t' u', In t' l /\ In u' l /\
    coord (centroid t) j - coord (centroid u) j <= coord (centroid t') k - coord (centroid u') k.
