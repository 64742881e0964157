(** Property theorems about planes and corners of triangles: C93, C94.

    Model: Geom.v, Cross.v, Corners.v.  Specification vocabulary: CornersSpec.v. *)

From Coq Require Import Reals Bool List Lra.
From Verif Require Import Py Geom Cross Corners CornersSpec CornersProofs.
Import ListNotations.
Open Scope R_scope.

(* ================================================================== *)
(** C93.  in_one_plane says whether all corners of the other triangle are in the plane of this
    one, if the corners of this one are not on one line.  The full statement is for all
    triangles: it is refuted below. *)
Theorem C93_plane_partial : forall t u, solid t ->
  (in_one_plane t u = true <-> in_plane t (ta u) /\ in_plane t (tb u) /\ in_plane t (tc u)).
Proof. exact plane_iff. Qed.
Print Assumptions C93_plane_partial.

Theorem C93_symmetric_partial : forall t u, solid t -> solid u -> in_one_plane t u = in_one_plane u t.
Proof. exact plane_symmetric. Qed.
Print Assumptions C93_symmetric_partial.

Definition base : triangle := Tri (V3 0 0 0) (V3 1 0 0) (V3 0 1 0) 0.
Definition above : triangle := Tri (V3 0 0 1) (V3 1 0 1) (V3 0 1 2) 1.
Definition needle : triangle := Tri (V3 0 0 0) (V3 1 0 0) (V3 2 0 0) 2.

Example C93_example : solid base /\ solid above /\ in_plane base (ta base) /\ ~ in_plane base (ta above).
Proof.
  assert (Sb : solid base) by (intros E; unfold cross, vsub, base in E; cbn in E; injection E; lra).
  split; [exact Sb|]. split; [|split].
  - intros E. unfold cross, vsub, above in E. cbn in E. injection E. lra.
  - exists 0, 0. unfold vadd, vmul, vsub, base. cbn. f_equal; ring.
  - intros (s & r & E). unfold vadd, vmul, vsub, base, above in E. cbn in E. injection E. lra.
Qed.

(** C93.  A triangle with corners on one line is in one plane with every triangle, even with
    one that has no common plane with it; and the answer depends on the order. *)
Theorem C93_degenerate : forall t u, ~ solid t -> in_one_plane t u = true.
Proof. exact plane_flat. Qed.
Print Assumptions C93_degenerate.

Theorem C93_refuted : exists t u, solid u /\ in_one_plane t u = true /\ in_one_plane u t = false.
Proof.
  exists needle, above. split; [|split].
  - intros E. unfold cross, vsub, above in E. cbn in E. injection E. lra.
  - apply plane_flat. intros N. apply N. unfold cross, vsub, needle. cbn. f_equal; ring.
  - destruct (in_one_plane above needle) eqn:E; [|reflexivity]. exfalso. apply plane_iff in E.
    + destruct E as ((s & r & E) & _ & _). unfold vadd, vmul, vsub, needle, above in E. cbn in E. injection E. intros. lra.
    + intros N. unfold cross, vsub, above in N. cbn in N. injection N. lra.
Qed.
Print Assumptions C93_refuted.

(* ================================================================== *)
(** C94.  get_angle_in_deg is the angle between two vectors in degrees; it raises for a zero
    vector. *)
Theorem C94_angle : forall u v x, get_angle_in_deg u v = Ok x <-> degrees u v x.
Proof. exact angle_iff. Qed.
Print Assumptions C94_angle.

Theorem C94_angle_raises : forall u v, u = V3 0 0 0 \/ v = V3 0 0 0 -> get_angle_in_deg u v = Raise EZeroDivisionError.
Proof. exact angle_raise. Qed.
Print Assumptions C94_angle_raises.

(** C94.  all_corners_smaller says whether all three corners are smaller than the given
    number of degrees; it raises exactly if two corners of the triangle are one point. *)
Theorem C94_corners : forall t corner, three_points t -> exists x y z b, corners_of t x y z /\
  all_corners_smaller t corner = Ok b /\ (b = true <-> x < corner /\ y < corner /\ z < corner).
Proof.
  intros t corner T. destruct (corners_there t T) as (x & y & z & C). destruct (all_corners_iff t x y z corner C) as (b & E & I).
  exists x, y, z, b. split; [exact C|]. split; [exact E|exact I].
Qed.
Print Assumptions C94_corners.

Theorem C94_raises : forall t corner, ~ three_points t -> all_corners_smaller t corner = Raise EZeroDivisionError.
Proof. exact all_corners_raise. Qed.
Print Assumptions C94_raises.

(** C94.  The corners are 180 degrees together, so for at most 60 degrees the answer is never
    yes, and for more than 180 it is always yes; for 90 degrees it is yes for acute
    triangles. *)
Theorem C94_sum : forall t x y z, corners_of t x y z -> x + y + z = 180.
Proof. exact corners_sum. Qed.
Print Assumptions C94_sum.

Theorem C94_sixty : forall t corner, corner <= 60 -> all_corners_smaller t corner <> Ok true.
Proof. exact corners_small. Qed.
Print Assumptions C94_sixty.

Theorem C94_large : forall t corner, three_points t -> 180 < corner -> all_corners_smaller t corner = Ok true.
Proof. exact corners_large. Qed.
Print Assumptions C94_large.

Theorem C94_acute : forall t, three_points t -> exists b, all_corners_smaller t 90 = Ok b /\
  (b = true <-> 0 < dot (vsub (tb t) (ta t)) (vsub (tc t) (ta t)) /\ 0 < dot (vsub (ta t) (tb t)) (vsub (tc t) (tb t)) /\ 0 < dot (vsub (ta t) (tc t)) (vsub (tb t) (tc t))).
Proof. exact corners_acute. Qed.
Print Assumptions C94_acute.

Example C94_example : three_points base /\ all_corners_smaller base 181 = Ok true /\ all_corners_smaller base 60 <> Ok true /\ all_corners_smaller base 90 = Ok false.
Proof.
  assert (T : three_points base) by (split; [|split]; unfold base; cbn; intros E; injection E; lra).
  split; [exact T|]. split; [apply corners_large; [exact T|lra]|]. split; [apply corners_small; lra|].
  destruct (corners_acute base T) as (b & E & I). rewrite E. f_equal. destruct b; [|reflexivity]. exfalso.
  destruct (proj1 I eq_refl) as (A & _). unfold dot, vsub, base in A. cbn in A. lra.
Qed.

(** C94.  The quality level is_good of a triangle is never returned. *)
Theorem C94_quality_refuted : exists t, three_points t /\ solid t /\ forall x, is_good t <> Ok x.
Proof.
  exists base. split; [split; [|split]; unfold base; cbn; intros E; injection E; lra|].
  split; [intros E; unfold cross, vsub, base in E; cbn in E; injection E; lra|]. discriminate.
Qed.
Print Assumptions C94_quality_refuted.
