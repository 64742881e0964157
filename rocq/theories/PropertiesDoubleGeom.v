(** Properties of lengths, middles and centers computed with IEEE doubles: C126.

    Model: Double.v, Heap.v, GridModel.v, Atomic.v, GridIO.v.  Specification vocabulary: DoubleSpec.v, DoubleGeomSpec.v, GridSpec.v, CollapseSpec.v. *)

From Coq Require Import ZArith Reals Ascii String Bool List.
From Flocq Require Import Core.Core IEEE754.BinarySingleNaN.
From Verif Require Import Py Heap GridModel GridSpec GridIO FileSpec Samples Atomic CollapseSpec Double DoubleSpec DoubleGeomSpec DoubleGeom DoubleDist DoubleCases DoubleGeomCases.
Import ListNotations.
Open Scope list_scope.
Open Scope nat_scope.

(* ================================================================== *)
(** C126.  The distance of two finite points does not depend on their order, is never negative, and is zero from a point to itself. *)
Theorem C126_distance : forall p q : @pt DoubleOps, finite_pt p -> finite_pt q ->
  @vdist DoubleOps p q = @vdist DoubleOps q p /\ @vltb DoubleOps (@vdist DoubleOps p q) (@val0 DoubleOps) = false /\ @vdist DoubleOps p p = @val0 DoubleOps.
Proof. exact (fun p q Fp Fq => conj (dist_sym p q Fp Fq) (conj (dist_nonneg p q) (dist_self p Fp))). Qed.
Print Assumptions C126_distance.

(** C126.  It is the root of the sum of the squares of the differences, every operation rounded. *)
Theorem C126_value : forall p q : @pt DoubleOps, finite_pt p -> finite_pt q -> at_most (bpow radix2 500) p -> at_most (bpow radix2 500) q ->
  let sq a b := rounded (rounded (a - b) * rounded (a - b)) in
  is_finite (proj1_sig (@vdist DoubleOps p q)) = true /\
  B2R (proj1_sig (@vdist DoubleOps p q)) = rounded (sqrt (rounded (rounded (sq (rx p) (rx q) + sq (ry p) (ry q)) + sq (rz p) (rz q)))).
Proof. exact dist_value. Qed.
Print Assumptions C126_value.

(** C126.  Points which are kept apart by the merging of nodes have a positive distance. *)
Theorem C126_positive : forall p q : @pt DoubleOps, finite_pt p -> finite_pt q -> @rnd DoubleOps p <> @rnd DoubleOps q ->
  @vltb DoubleOps (@val0 DoubleOps) (@vdist DoubleOps p q) = true.
Proof. exact dist_pos. Qed.
Print Assumptions C126_positive.

(** C126.  Hence every side of a loaded grid has a positive length. *)
Theorem C126_loaded : forall text h (h' : @heap DoubleOps) evs e, @load DoubleOps true text h = (Ok tt, h') -> @file_form DoubleOps [] (file_lines text) evs ->
  @no_degenerate DoubleOps (@zones_of DoubleOps evs) -> Forall finite_pt (all_pts (@zones_of DoubleOps evs)) -> In e (g_edges h') ->
  exists a b v, a <> b /\ e_nodes h' e = [a; b] /\ len_edge h' e = Ok v /\ v = @vdist DoubleOps (n_p h' a) (n_p h' b) /\ @vltb DoubleOps (@val0 DoubleOps) v = true.
Proof. exact loaded_length. Qed.
Print Assumptions C126_loaded.

(** C126.  And so has every side of a grid with merged nodes, whatever was done with it. *)
Theorem C126_side : forall (h : @heap DoubleOps) e a b, topo_ok h -> nodes_merged h -> In e (g_edges h) -> e_nodes h e = [a; b] -> finite_pt (n_p h a) -> finite_pt (n_p h b) ->
  exists v, len_edge h e = Ok v /\ v = @vdist DoubleOps (n_p h a) (n_p h b) /\ v = @vdist DoubleOps (n_p h b) (n_p h a) /\ @vltb DoubleOps (@val0 DoubleOps) v = true.
Proof. exact edge_length. Qed.
Print Assumptions C126_side.

(** C126.  Points in general have no positive distance though they differ: the squares underflow. *)
Theorem C126_positive_refuted : exists p q : @pt DoubleOps, finite_pt p /\ finite_pt q /\ (rx p < rx q)%R /\ @vdist DoubleOps p q = @val0 DoubleOps.
Proof. exact zero_main. Qed.
Print Assumptions C126_positive_refuted.

(** C126.  The middle of two points does not depend on their order and is in the box of the two points; each coordinate is the half of the sum, rounded twice. *)
Theorem C126_middle : forall p q : @pt DoubleOps, finite_pt p -> finite_pt q -> at_most (bpow radix2 1022) p -> at_most (bpow radix2 1022) q ->
  finite_pt (@vmid DoubleOps p q) /\ in_box p q (@vmid DoubleOps p q) /\ @vmid DoubleOps q p = @vmid DoubleOps p q /\
  rx (@vmid DoubleOps p q) = rounded (rounded (rx p + rx q) / 2) /\ ry (@vmid DoubleOps p q) = rounded (rounded (ry p + ry q) / 2) /\
  rz (@vmid DoubleOps p q) = rounded (rounded (rz p + rz q) / 2).
Proof. exact middle_main. Qed.
Print Assumptions C126_middle.

(** C126.  For greater numbers the middle may be infinite, even that of a point with itself. *)
Theorem C126_middle_refuted : exists p q : @pt DoubleOps, finite_pt p /\ finite_pt q /\ ~ finite_pt (@vmid DoubleOps p q) /\ @vmid DoubleOps p p <> p.
Proof. exact overflow_main. Qed.
Print Assumptions C126_middle_refuted.

(** C126.  In a grid of a size up to a kilometre the middle of two points which differ by more than 2.01 ten-billionths is a new place: it is merged with none of them. *)
Theorem C126_apart : forall p q : @pt DoubleOps, finite_pt p -> finite_pt q -> at_most 1024 p -> at_most 1024 q -> apart (ten (-10) * (2 + / 100)) p q ->
  @rnd DoubleOps (@vmid DoubleOps p q) <> @rnd DoubleOps p /\ @rnd DoubleOps (@vmid DoubleOps p q) <> @rnd DoubleOps q.
Proof. exact apart_main. Qed.
Print Assumptions C126_apart.

(** C126.  The node left by the contraction of an edge (C38) is in the box of the ends of the edge. *)
Theorem C126_contraction : forall (h h' : @heap DoubleOps) edge e1 e2 f1 f2 n1 n2, contracted h h' edge e1 e2 f1 f2 n1 n2 -> finite_pt (n_p h n1) -> finite_pt (n_p h n2) ->
  at_most (bpow radix2 1022) (n_p h n1) -> at_most (bpow radix2 1022) (n_p h n2) -> finite_pt (n_p h' n1) /\ in_box (n_p h n1) (n_p h n2) (n_p h' n1).
Proof. exact collapse_box. Qed.
Print Assumptions C126_contraction.

(** C126.  The center of a face, by which the decompositions compare faces, differs from the mean of the corners by no more than 2 ^ -51 of the greatest coordinate
    (and the least double). *)
Theorem C126_center : forall (h : @heap DoubleOps) f a b c r M, f_nodes h f = a :: b :: c :: r -> finite_pt (n_p h a) -> finite_pt (n_p h b) -> finite_pt (n_p h c) ->
  at_most M (n_p h a) -> at_most M (n_p h b) -> at_most M (n_p h c) -> (M <= bpow radix2 1020)%R ->
  let m := get_center h f in finite_pt m /\
  (Rabs (rx m - (rx (n_p h a) + rx (n_p h b) + rx (n_p h c)) / 3) <= bpow radix2 (-51) * M + bpow radix2 (-1073))%R /\
  (Rabs (ry m - (ry (n_p h a) + ry (n_p h b) + ry (n_p h c)) / 3) <= bpow radix2 (-51) * M + bpow radix2 (-1073))%R /\
  (Rabs (rz m - (rz (n_p h a) + rz (n_p h b) + rz (n_p h c)) / 3) <= bpow radix2 (-51) * M + bpow radix2 (-1073))%R.
Proof. exact face_center. Qed.
Print Assumptions C126_center.

(** C126.  But the center depends on the order of the corners ... *)
Theorem C126_center_order_refuted : exists p q r : @pt DoubleOps, finite_pt p /\ finite_pt q /\ finite_pt r /\ (rx (@vcen DoubleOps r q p) < rx (@vcen DoubleOps p q r))%R.
Proof. exact order_main. Qed.
Print Assumptions C126_center_order_refuted.

(** C126.  ... and may lie outside the triangle: three corners with one x have a center with another x. *)
Theorem C126_center_inside_refuted : exists p q r : @pt DoubleOps, finite_pt p /\ finite_pt q /\ finite_pt r /\ rx p = rx q /\ rx q = rx r /\ (rx p < rx (@vcen DoubleOps p q r))%R.
Proof. exact outside_main. Qed.
Print Assumptions C126_center_inside_refuted.

(** Two points at a distance of one metre, and the file of two faces of C122. *)
Example C126_example : finite_pt (at_x "0") /\ finite_pt (at_x "1") /\ at_most 1024 (at_x "0") /\ at_most 1024 (at_x "1") /\ apart (ten (-10) * (2 + / 100)) (at_x "0") (at_x "1") /\
  @rnd DoubleOps (at_x "0") <> @rnd DoubleOps (at_x "1") /\
  map (fun v => @fmt DoubleOps v) (let '(x, y, z) := @vmid DoubleOps (at_x "0") (at_x "1") in [x; y; z]) = [lit "5.000000000000000000e-01"; lit "0.000000000000000000e+00"; lit "0.000000000000000000e+00"] /\
  @file_form DoubleOps [] (file_lines tiny) [EZone tinyA; EZone tinyB] /\ @no_degenerate DoubleOps [tinyA; tinyB] /\ Forall finite_pt (all_pts [tinyA; tinyB]) /\
  exists h', @load DoubleOps true tiny (new_grid empty_heap) = (Ok tt, h') /\ length (g_edges h') = 5.
Proof.
  destruct unit_case as (A1 & A2 & A3 & A4 & A5 & A6 & A7). destruct tiny_case as (B1 & B2 & B3).
  do 6 (split; [assumption|]). split; [exact A7|]. split; [exact tiny_form|]. split; [exact B1|]. split; [exact B2|exact B3].
Qed.
