(** Property theorems about geometry (C41 - C46). *)

From Coq Require Import ZArith Reals Bool Lra Lia List Permutation Sorting.Sorted.
From Verif Require Import Py Geom GeomSpec GeomProofs CloudProofs CloudSort GeomMore.
Import ListNotations.
Open Scope R_scope.

(** C41.  A cloud is built from every non-empty list; its leaves hold one triangle
    each, all of them are the triangles of the list, each once, and the box of every
    part contains all points of its triangles. *)
Theorem C41_cloud : forall l, l <> [] -> exists c, triangles_cloud l = Ok c /\
  Permutation (stored c) l /\
  (forall d, part d c -> leaf_or_pair d /\
     forall t x, In t (stored d) -> in_triangle (ta t) (tb t) (tc t) x -> in_box (cloud_box d) x).
Proof. exact cloud_built. Qed.
Print Assumptions C41_cloud.

(** C41.  The list of the caller is put in another order, but loses nothing. *)
Theorem C41_caller_list : forall l, exists l', caller_list l = Ok l' /\ Permutation l' l.
Proof. exact caller_list_ok. Qed.
Print Assumptions C41_caller_list.

(** C41.  The order of the list of the caller after the call: by the coordinate of centroids
    along the axis of their greatest spread. *)
Theorem C41_caller_order : forall l, (2 <= length l)%nat -> exists l' k, caller_list l = Ok l' /\ Permutation l' l /\
  longest l k /\ StronglySorted (fun t u => coord (centroid t) k <= coord (centroid u) k) l'.
Proof. exact caller_sorted. Qed.
Print Assumptions C41_caller_order.

(** C41.  The tree is balanced: its depth is the binary logarithm of the number of
    triangles, rounded up. *)
Theorem C41_depth : forall l c, triangles_cloud l = Ok c -> depth c = Nat.log2_up (length l).
Proof. exact (fun l c => build_depth (length l) l c). Qed.
Print Assumptions C41_depth.

(** C41.  The empty list is refused. *)
Theorem C41_empty : triangles_cloud [] = Raise EValueError.
Proof. exact (build_cloud_empty 0). Qed.
Print Assumptions C41_empty.

Example C41_example : [unit_triangle; far_triangle; unit_triangle] <> [].
Proof. discriminate. Qed.

(** C42.  If no triangle is (almost) parallel to the segment, the search returns a
    triangle of the list with a point of the segment, and None only if there is no
    such triangle.  The full statement puts no condition on triangles and the
    segment; it is refuted below. *)
Theorem C42_search_partial : forall l s, l <> [] -> (forall t, In t l -> eps10 <= Rabs (spanned t s)) ->
  exists c r, triangles_cloud l = Ok c /\ first_intersection s c = Ok r /\
    match r with
    | Some t => In t l /\ exists x, common t s x
    | None => forall t x, In t l -> ~ common t s x
    end.
Proof. exact first_intersection_ok. Qed.
Print Assumptions C42_search_partial.

(** C42.  For all triangles and segments: the tree never loses a triangle for which
    the triangle test itself finds a common point. *)
Theorem C42_pruning : forall l s, l <> [] -> exists c r, triangles_cloud l = Ok c /\ first_intersection s c = Ok r /\
    match r with
    | Some t => In t l /\ intersection_with_segment t s <> []
    | None => forall t x, In t l -> In x (intersection_with_segment t s) -> ~ common t s x
    end.
Proof. exact first_intersection_any. Qed.
Print Assumptions C42_pruning.

(** C42.  A segment in the plane of a triangle that touches its corner is lost. *)
Theorem C42_touching_refuted : exists l s t x c, In t l /\ common t s x /\
  triangles_cloud l = Ok c /\ first_intersection s c = Ok None.
Proof. exact touching_cloud. Qed.
Print Assumptions C42_touching_refuted.

(** C42.  A triangle without common points with the segment is returned. *)
Theorem C42_ahead_refuted : exists l s c t, (forall x u, In u l -> ~ common u s x) /\
  triangles_cloud l = Ok c /\ first_intersection s c = Ok (Some t).
Proof. exact ahead_cloud. Qed.
Print Assumptions C42_ahead_refuted.

Example C42_example : forall t, In t [unit_triangle; far_triangle] -> eps10 <= Rabs (spanned t upright).
Proof.
  destruct upright_general as (E1 & E2 & _). intros t [<-|[<-|[]]]; rewrite ?E1, ?E2, Rabs_right; unfold eps10; lra.
Qed.

(** C43.  The points returned are exactly the common points, and there is at most one,
    if the volume spanned by the triangle and the segment is not below 1e-10.  The full
    statement only asks for a volume that is not zero; it is refuted below. *)
Theorem C43_general_partial : forall t s, eps10 <= Rabs (spanned t s) ->
  (forall x, In x (intersection_with_segment t s) <-> common t s x) /\
  (length (intersection_with_segment t s) <= 1)%nat.
Proof. exact segment_general. Qed.
Print Assumptions C43_general_partial.

(** C43.  A small triangle and a short segment that crosses it: nothing is found. *)
Theorem C43_small_refuted : exists t s x, spanned t s <> 0 /\ common t s x /\ intersection_with_segment t s = [].
Proof. exact segment_small_fails. Qed.
Print Assumptions C43_small_refuted.

Example C43_example : eps10 <= Rabs (spanned unit_triangle upright) /\ common unit_triangle upright (V3 (1 / 4) (1 / 4) 0).
Proof. destruct upright_general as (E & _ & H). split; auto. rewrite E, Rabs_right; unfold eps10; lra. Qed.

(** C44.  The box of points is the smallest box with all of them. *)
Theorem C44_box_of_points : forall ps, ps <> [] -> exists b, box_of ps = Ok b /\
  (forall p, In p ps -> in_box b p) /\
  (forall b', (forall p, In p ps -> in_box b' p) -> box_within b b').
Proof. exact box_of_ok. Qed.
Print Assumptions C44_box_of_points.

(** C44.  The test of a point is exact. *)
Theorem C44_point_inside : forall b p, is_point_inside b p = true <-> in_box b p.
Proof. exact is_point_inside_ok. Qed.
Print Assumptions C44_point_inside.

(** C44.  The test of two boxes that have points is exact. *)
Theorem C44_boxes : forall b o, (exists p, in_box b p) -> (exists p, in_box o p) ->
  (is_potential_intersect_with_box b o = true <-> exists p, in_box b p /\ in_box o p).
Proof. exact box_box_common. Qed.
Print Assumptions C44_boxes.

(** C44.  It does not depend on the order of the boxes. *)
Theorem C44_symmetric : forall b o, is_potential_intersect_with_box b o = is_potential_intersect_with_box o b.
Proof. exact box_box_sym. Qed.
Print Assumptions C44_symmetric.

(** C44.  The test of a segment says no only if there is no common point. *)
Theorem C44_segment : forall b s, is_intersect_with_segment b s = false ->
  ~ exists x, in_box b x /\ on_segment (sa s) (sb s) x.
Proof. exact box_segment_ok. Qed.
Print Assumptions C44_segment.

Example C44_example : exists p, in_box (Box3 0 0 0 1 1 1) p /\ in_box (Box3 1 0 0 2 1 1) p.
Proof. exists (V3 1 0 0). unfold in_box. cbn. lra. Qed.

(** C45.  What holds of the order and the equality for all vectors. *)
Theorem C45_irreflexive : forall a, vlt a a = false.
Proof. exact vlt_irrefl. Qed.
Print Assumptions C45_irreflexive.

Theorem C45_eq_reflexive : forall a, veq a a = true.
Proof. exact veq_refl. Qed.
Print Assumptions C45_eq_reflexive.

Theorem C45_eq_symmetric : forall a b, veq a b = veq b a.
Proof. exact veq_sym. Qed.
Print Assumptions C45_eq_symmetric.

(** C45.  For vectors with coordinates that are equal or differ by at least 1e-10 the
    order is the lexicographic one, which is a strict total order, and the equality is
    exact.  The full statement has no such condition; it is refuted below. *)
Theorem C45_order_partial : forall a b, vapart a b -> (vlt a b = true <-> lex_lt a b).
Proof. exact vlt_lex. Qed.
Print Assumptions C45_order_partial.

Theorem C45_lexicographic : (forall a, ~ lex_lt a a) /\ (forall a b c, lex_lt a b -> lex_lt b c -> lex_lt a c) /\
  (forall a b, lex_lt a b \/ a = b \/ lex_lt b a).
Proof. exact lex_order. Qed.
Print Assumptions C45_lexicographic.

Theorem C45_equality_partial : forall a b, vapart a b -> (veq a b = true <-> a = b).
Proof. exact veq_apart. Qed.
Print Assumptions C45_equality_partial.

(** C45.  Two vectors, each less than the other. *)
Theorem C45_asymmetric_refuted : exists a b, vlt a b = true /\ vlt b a = true.
Proof. exact vlt_asym_fails. Qed.
Print Assumptions C45_asymmetric_refuted.

Theorem C45_transitive_refuted : exists a b c, vlt a b = true /\ vlt b c = true /\ vlt a c = false.
Proof. exact vlt_trans_fails. Qed.
Print Assumptions C45_transitive_refuted.

Theorem C45_eq_transitive_refuted : exists a b c, veq a b = true /\ veq b c = true /\ veq a c = false.
Proof. exact veq_trans_fails. Qed.
Print Assumptions C45_eq_transitive_refuted.

Example C45_example : vapart (V3 0 1 2) (V3 0 1 3) /\ lex_lt (V3 0 1 2) (V3 0 1 3).
Proof.
  split; [|unfold lex_lt; cbn; lra]. split; [left; auto|]. split; [left; auto|]. right. cbn.
  rewrite Rabs_left; unfold eps10; lra.
Qed.

(** C46.  A triangle moved as a whole: the volume is the volume of the prism, that is
    half of the volume spanned by two sides and the displacement. *)
Theorem C46_prism : forall a b c v,
  displaced_triangle_volume a b c (vadd a v) (vadd b v) (vadd c v) =
  Rabs (dot v (cross (vsub b a) (vsub c a))) / 2.
Proof. exact displaced_prism. Qed.
Print Assumptions C46_prism.

(** C46.  For a triangle with a normal this is the area times the height. *)
Theorem C46_area_height : forall a b c v n r, normal_orth (Tri a b c r) = Ok n ->
  displaced_triangle_volume a b c (vadd a v) (vadd b v) (vadd c v) = area (Tri a b c r) * Rabs (dot v n).
Proof. exact displaced_area_height. Qed.
Print Assumptions C46_area_height.

(** C46.  No displacement, no volume; volumes are not negative. *)
Theorem C46_zero : forall a b c, displaced_triangle_volume a b c a b c = 0.
Proof. exact displaced_none. Qed.
Print Assumptions C46_zero.

Theorem C46_nonnegative : forall a b c na nb nc, 0 <= displaced_triangle_volume a b c na nb nc.
Proof. exact displaced_nonneg. Qed.
Print Assumptions C46_nonnegative.

(** C46.  Moving the whole picture does not change the volume. *)
Theorem C46_translation : forall a b c na nb nc v,
  displaced_triangle_volume (vadd a v) (vadd b v) (vadd c v) (vadd na v) (vadd nb v) (vadd nc v) =
  displaced_triangle_volume a b c na nb nc.
Proof. exact displaced_translate. Qed.
Print Assumptions C46_translation.

(** C46.  The volume of a tetrahedron does not depend on the order of its corners. *)
Theorem C46_tetrahedron : forall a b c d,
  tetrahedron_volume b a c d = tetrahedron_volume a b c d /\
  tetrahedron_volume b c a d = tetrahedron_volume a b c d /\
  tetrahedron_volume d b c a = tetrahedron_volume a b c d.
Proof. exact tetra_swap. Qed.
Print Assumptions C46_tetrahedron.

Example C46_example : exists n, normal_orth unit_triangle = Ok n /\
  displaced_triangle_volume (V3 0 0 0) (V3 1 0 0) (V3 0 1 0) (V3 0 0 3) (V3 1 0 3) (V3 0 1 3) = 3 / 2.
Proof.
  unfold normal_orth, orth, vdivr.
  replace (vmod _) with 1.
  - replace (Reqb 1 0) with false by (symmetry; apply Reqb_false; lra). eexists. split; [reflexivity|].
    pose proof (displaced_prism (V3 0 0 0) (V3 1 0 0) (V3 0 1 0) (V3 0 0 3)) as H.
    unfold vadd in H. cbn in H. rewrite !Rplus_0_r, !Rplus_0_l in H. rewrite H.
    unfold dot, cross. cbn. rewrite Rabs_right; lra.
  - unfold vmod, mod2, dot, cross. cbn. replace (_ + _ + _) with 1 by ring. rewrite sqrt_1. auto.
Qed.
