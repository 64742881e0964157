(** Properties of intersections of triangles and clouds, of points in triangles and of
    equality of triangles: C85 - C88.

    Model: Cross.v (with Geom.v).  Specification vocabulary: CrossSpec.v, GeomSpec.v. *)

From Coq Require Import Reals List Bool Lra Permutation.
From Verif Require Import Py Geom GeomSpec GeomMore Cross CrossSpec CrossProofs CrossMore.
Import ListNotations.
Open Scope R_scope.

(* ================================================================== *)
(** C85.  If no side of one triangle is (almost) parallel to the plane of the other, an
    intersection is reported exactly if the triangles have a common point; ... *)
Theorem C85_meet_partial : forall srt t u, keeps_all srt -> t_ref t <> t_ref u -> general t u ->
  (intersection_with_triangle srt t u <> [] <-> exists x, in_tri t x /\ in_tri u x).
Proof. exact triangles_meet. Qed.
Print Assumptions C85_meet_partial.

(** ... the reported points are points where a side of one crosses the other, all such
    points are reported (with an error of at most 5e-10), and every common point is
    between two of them. *)
Theorem C85_points_partial : forall srt t u, keeps_all srt -> t_ref t <> t_ref u -> general t u ->
  (forall x, In x (intersection_with_triangle srt t u) -> crossing t u x) /\
  (forall x, crossing t u x -> exists y, In y (intersection_with_triangle srt t u) /\ dist_to x y <= 5 * eps10) /\
  (forall x, in_tri t x -> in_tri u x -> exists y z, crossing t u y /\ crossing t u z /\ on_segment y z x).
Proof.
  exact (fun srt t u K N G => conj (fun x => triangles_points srt t u x K G)
    (conj (fun x => triangles_near srt t u x K N G) (fun x => crossing_exists t u x G))).
Qed.
Print Assumptions C85_points_partial.

(** C85.  The answer does not depend on the order of the triangles. *)
Theorem C85_symmetric : forall srt t u, keeps_all srt ->
  (intersection_with_triangle srt t u = [] <-> intersection_with_triangle srt u t = []).
Proof. exact triangles_symmetric. Qed.
Print Assumptions C85_symmetric.

Example C85_example : keeps_all (fun l => l) /\ t_ref flat1 <> t_ref up1 /\ general flat1 up1 /\
  in_tri flat1 (V3 1 1 0) /\ in_tri up1 (V3 1 1 0).
Proof.
  split; [intros l; apply Permutation_refl|]. split; [discriminate|]. split; [exact cross_general|exact cross_common].
Qed.

(** C85.  Triangles with sides shorter than 1/2200 that do not have a side in the plane of
    the other one are never reported; ... *)
Theorem C85_small : forall srt t u, sides_below (/ 2200) t -> sides_below (/ 2200) u ->
  (forall s, In s (sides u) -> off_plane t s) -> (forall s, In s (sides t) -> off_plane u s) ->
  intersection_with_triangle srt t u = [].
Proof. exact small_lost. Qed.
Print Assumptions C85_small.

(** ... so common points of small triangles are lost. *)
Theorem C85_small_refuted : exists t u x, t_ref t <> t_ref u /\ in_tri t x /\ in_tri u x /\
  forall srt, intersection_with_triangle srt t u = [].
Proof.
  exists tiny1, tiny2, (V3 (/ 40000) (/ 40000) 0). split; [discriminate|]. split; [apply tiny_common|]. split; [apply tiny_common|].
  intros srt. apply C85_small; apply tiny_below || apply tiny_off.
Qed.
Print Assumptions C85_small_refuted.

(** C85.  Triangles of one plane without common points may be reported. *)
Theorem C85_apart_refuted : exists t u, (forall x, ~ (in_tri t x /\ in_tri u x)) /\
  forall srt, keeps_all srt -> intersection_with_triangle srt t u <> [].
Proof. exact (ex_intro _ ahead_triangle (ex_intro _ beside (conj beside_apart beside_reported))). Qed.
Print Assumptions C85_apart_refuted.

(* ================================================================== *)
(** C86.  The answer for two clouds is the concatenation of the answers for a part of the
    pairs of their triangles, every pair at most once; two entries for every pair.  The
    pairs that are left out have no common point or would be reported empty by the
    triangles themselves; in general position they have no common point. *)
Theorem C86_clouds : forall srt l1 l2, keeps_all srt -> l1 <> [] -> l2 <> [] ->
  exists c1 c2 pairs rest, triangles_cloud l1 = Ok c1 /\ triangles_cloud l2 = Ok c2 /\
    intersection_with_cloud srt c1 c2 =
      flat_map (fun p => let ps := intersection_with_triangle srt (fst p) (snd p) in [(fst p, ps); (snd p, ps)]) pairs /\
    Permutation (pairs ++ rest) (list_prod l1 l2) /\
    (forall p, In p pairs -> intersection_with_triangle srt (fst p) (snd p) <> []) /\
    (forall p, In p rest -> intersection_with_triangle srt (fst p) (snd p) = [] \/ forall x, ~ (in_tri (fst p) x /\ in_tri (snd p) x)) /\
    (forall t u, In (t, u) rest -> general t u -> t_ref t <> t_ref u -> forall x, ~ (in_tri t x /\ in_tri u x)).
Proof. exact clouds_meet. Qed.
Print Assumptions C86_clouds.

Example C86_example : keeps_all (fun l => l) /\ [flat1; far_triangle] <> [] /\ [up1] <> [] /\ general flat1 up1.
Proof. split; [intros l; apply Permutation_refl|]. split; [discriminate|]. split; [discriminate|exact cross_general]. Qed.

(* ================================================================== *)
(** C87.  For triangles with an area of at least 0.15: a point of the plane with weights that
    are zero or not too small is classified by the number of corners it depends on (1 - a
    corner, 2 - a side, 3 - inside); ... *)
Theorem C87_inside_partial : forall t x u v w, 3 / 20 <= area t -> weights t x u v w ->
  (u = 0 \/ eps10 / 2 < u * area t) -> (v = 0 \/ eps10 / 2 < v * area t) -> (w = 0 \/ eps10 / 2 < w * area t) ->
  point_in_triangle t x = (some_weight u + some_weight v + some_weight w)%nat.
Proof. exact point_inside. Qed.
Print Assumptions C87_inside_partial.

(** ... and a point of the plane with a negative weight is outside. *)
Theorem C87_outside_partial : forall t x u v w, 3 / 20 <= area t -> weights t x u v w ->
  u <= - / 100000000 \/ v <= - / 100000000 \/ w <= - / 100000000 -> point_in_triangle t x = 0%nat.
Proof. exact point_outside. Qed.
Print Assumptions C87_outside_partial.

Example C87_example : 3 / 20 <= area unit_triangle /\ weights unit_triangle (V3 (1 / 2) 0 0) (1 / 2) (1 / 2) 0 /\
  point_in_triangle unit_triangle (V3 (1 / 2) 0 0) = 2%nat.
Proof.
  assert (A : area unit_triangle = 1 / 2).
  { unfold unit_triangle. rewrite (area_flat _ _ _ _ 1); [lra|lra|]. unfold cross, vsub. cbn. f_equal; lra. }
  assert (W : weights unit_triangle (V3 (1 / 2) 0 0) (1 / 2) (1 / 2) 0) by (unfold weights; cbn; repeat split; lra).
  split; [lra|]. split; [exact W|]. rewrite (C87_inside_partial _ _ (1 / 2) (1 / 2) 0); auto; try (right; rewrite A; unfold eps10; lra); [|lra].
  unfold some_weight. destruct (Req_EM_T (1 / 2) 0); [lra|]. destruct (Req_EM_T 0 0); [reflexivity|contradiction].
Qed.

(** C87.  The centroid of a triangle of one millimetre is outside. *)
Theorem C87_small_refuted : exists t x u v w, 0 < area t /\ 0 < u /\ 0 < v /\ 0 < w /\ weights t x u v w /\ point_in_triangle t x = 0%nat.
Proof.
  exists mm_triangle, (V3 (/ 3000) (/ 3000) 0), (1 / 3), (1 / 3), (1 / 3). rewrite mm_area. destruct mm_lost as [W E].
  repeat split; lra || apply W || exact E.
Qed.
Print Assumptions C87_small_refuted.

(** C87.  A point that is not in the plane of the triangle is inside. *)
Theorem C87_over_refuted : exists t x, (forall u v w, ~ weights t x u v w) /\ point_in_triangle t x = 3%nat.
Proof. exact (ex_intro _ unit_triangle (ex_intro _ over (conj over_out over_inside))). Qed.
Print Assumptions C87_over_refuted.

(* ================================================================== *)
(** C88.  Triangles with different corners, whose coordinates are equal or differ by at least
    3e-10, are equal exactly if they have the same corners, in any order. *)
Theorem C88_equal_partial : forall t u, (forall a b, In a (points t) -> In b (points u) -> wide a b) -> NoDup (points t) -> NoDup (points u) ->
  (teq t u = true <-> same_corners t u).
Proof. exact teq_corners. Qed.
Print Assumptions C88_equal_partial.

Theorem C88_reflexive : forall t, teq t t = true.
Proof. exact teq_refl. Qed.
Print Assumptions C88_reflexive.

Example C88_example : (forall a b, In a (points unit_triangle) -> In b (points (Tri (V3 0 1 0) (V3 0 0 0) (V3 1 0 0) 5)) -> wide a b) /\
  same_corners unit_triangle (Tri (V3 0 1 0) (V3 0 0 0) (V3 1 0 0) 5).
Proof.
  split; [|intros x; cbn; tauto].
  intros a b [<-|[<-|[<-|[]]]] [<-|[<-|[<-|[]]]]; unfold wide; cbn; repeat split;
    first [left; reflexivity|right; rabs; unfold eps10; lra].
Qed.

(** C88.  With a degenerate triangle the equality depends on the order, and different
    triangles are equal. *)
Theorem C88_symmetric_refuted : exists t u, teq t u = true /\ teq u t = false /\ ~ same_corners t u.
Proof.
  exists folded, spread. destruct folded_equal as [A B]. split; [exact A|]. split; [exact B|].
  intros S. assert (K : In (V3 3 0 0) (points folded)) by (apply S; cbn; auto). cbn in K.
  destruct K as [K|[K|[K|[]]]]; injection K; intros; lra.
Qed.
Print Assumptions C88_symmetric_refuted.
