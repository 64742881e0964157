(** Proofs about the order of vectors and volumes; counterexamples of geometry. *)

From Coq Require Import ZArith Reals Bool Lra Lia List Permutation.
From Verif Require Import Py Geom GeomSpec GeomProofs CloudProofs.
Import ListNotations.
Open Scope R_scope.

(** Decides comparisons of numbers in the goal. *)
Ltac rdec := repeat match goal with
  | |- context [Rltb ?a ?b] =>
      first [replace (Rltb a b) with true by (symmetry; apply Rltb_true; lra)
            |replace (Rltb a b) with false by (symmetry; apply Rltb_false; lra)]
  | |- context [Rleb ?a ?b] =>
      first [replace (Rleb a b) with true by (symmetry; apply Rleb_true; lra)
            |replace (Rleb a b) with false by (symmetry; apply Rleb_false; lra)]
  | |- context [Reqb ?a ?b] =>
      first [replace (Reqb a b) with true by (symmetry; apply Reqb_true; lra)
            |replace (Reqb a b) with false by (symmetry; apply Reqb_false; lra)]
  end.

(** ** Order and equality of vectors *)

Lemma mod2_nonneg : forall a, 0 <= mod2 a.
Proof. intros a. unfold mod2, dot. nra. Qed.

Lemma vmod_nonneg : forall a, 0 <= vmod a.
Proof. intros a. apply sqrt_pos. Qed.

Lemma vmod_coord : forall a, Rabs (vx a) <= vmod a /\ Rabs (vy a) <= vmod a /\ Rabs (vz a) <= vmod a.
Proof.
  intros a. unfold vmod. rewrite <- !sqrt_Rsqr_abs. unfold Rsqr, mod2, dot.
  split; [|split]; apply sqrt_le_1_alt; nra.
Qed.

Lemma vlt_iff : forall a b, vlt a b = true <->
  (Rabs (vx a - vx b) < eps10 /\ Rabs (vy a - vy b) < eps10 /\ vz a < vz b) \/
  (Rabs (vx a - vx b) < eps10 /\ vy a < vy b) \/ vx a < vx b.
Proof.
  intros a b. unfold vlt.
  destruct (Rltb (Rabs (vx a - vx b)) eps10) eqn:E1; destruct (Rltb (Rabs (vy a - vy b)) eps10) eqn:E2;
  destruct (Rltb (vz a) (vz b)) eqn:E3; destruct (Rltb (vy a) (vy b)) eqn:E4; destruct (Rltb (vx a) (vx b)) eqn:E5;
  rewrite ?Rltb_true, ?Rltb_false in *; cbn; split; intros; auto; try discriminate; exfalso; lra.
Qed.

Theorem vlt_irrefl : forall a, vlt a a = false.
Proof.
  intros a. destruct (vlt a a) eqn:E; auto. apply vlt_iff in E. lra.
Qed.

Theorem vlt_asym_fails : exists a b, vlt a b = true /\ vlt b a = true.
Proof.
  exists (V3 0 1 0), (V3 (eps10 / 2) 0 0). pose proof eps10_pos. rewrite !vlt_iff. cbn. split; [right; right; lra|].
  right. left. split; [|lra]. rewrite Rabs_right; lra.
Qed.

Theorem vlt_trans_fails : exists a b c, vlt a b = true /\ vlt b c = true /\ vlt a c = false.
Proof.
  exists (V3 (2 * eps10) 0 0), (V3 (3 / 2 * eps10) 1 0), (V3 (3 / 4 * eps10) 2 0). pose proof eps10_pos. rewrite !vlt_iff. cbn.
  split; [right; left; split; [rewrite Rabs_right; lra|lra]|]. split; [right; left; split; [rewrite Rabs_right; lra|lra]|].
  match goal with |- ?b = false => destruct b eqn:E end; auto. apply vlt_iff in E. cbn in E. rewrite Rabs_right in E by lra. lra.
Qed.

Theorem veq_refl : forall a, veq a a = true.
Proof.
  intros a. unfold veq, is_near_v. apply Rltb_true. unfold dist_to, vmod, mod2, dot. cbn.
  replace (_ + _ + _) with 0 by ring. rewrite sqrt_0. apply eps10_pos.
Qed.

Theorem veq_sym : forall a b, veq a b = veq b a.
Proof.
  intros a b. unfold veq, is_near_v, dist_to, vmod, mod2, dot. cbn. f_equal. f_equal. ring.
Qed.

Theorem veq_trans_fails : exists a b c, veq a b = true /\ veq b c = true /\ veq a c = false.
Proof.
  exists (V3 0 0 0), (V3 (3 / 4 * eps10) 0 0), (V3 (3 / 2 * eps10) 0 0). pose proof eps10_pos.
  assert (D : forall x y, dist_to (V3 x 0 0) (V3 y 0 0) = Rabs (x - y)).
  { intros x y. unfold dist_to, vmod, mod2, dot. cbn. rewrite <- sqrt_Rsqr_abs. unfold Rsqr. f_equal. ring. }
  unfold veq, is_near_v. rewrite !D. rewrite !Rltb_true, Rltb_false.
  rewrite !Rabs_left by lra. lra.
Qed.

Lemma apart_near : forall x y, apart x y -> Rabs (x - y) < eps10 -> x = y.
Proof. intros x y [E|H] K; auto. lra. Qed.

Lemma apart_zero : forall x y, x = y -> Rabs (x - y) < eps10.
Proof. intros x y ->. replace (y - y) with 0 by ring. rewrite Rabs_R0. apply eps10_pos. Qed.

Theorem vlt_lex : forall a b, vapart a b -> (vlt a b = true <-> lex_lt a b).
Proof.
  intros a b (Ax & Ay & Az). rewrite vlt_iff. unfold lex_lt. split.
  - intros [(H1 & H2 & H3)|[(H1 & H2)|H]].
    + apply apart_near in H1, H2; auto.
    + apply apart_near in H1; auto.
    + auto.
  - intros [H|(H1 & [H2|(H2 & H3)])]; auto.
    + right. left. split; auto. apply apart_zero. auto.
    + left. split; [apply apart_zero; auto|]. split; [apply apart_zero; auto|]. auto.
Qed.

Theorem veq_apart : forall a b, vapart a b -> (veq a b = true <-> a = b).
Proof.
  intros a b (Ax & Ay & Az). split; [|intros ->; apply veq_refl].
  unfold veq, is_near_v. rewrite Rltb_true. intros H. destruct (vmod_coord (vsub a b)) as (K1 & K2 & K3). cbn in K1, K2, K3.
  unfold dist_to in H. apply vect_eq; apply apart_near; auto; lra.
Qed.

Theorem lex_order : (forall a, ~ lex_lt a a) /\ (forall a b c, lex_lt a b -> lex_lt b c -> lex_lt a c) /\
  (forall a b, lex_lt a b \/ a = b \/ lex_lt b a).
Proof.
  split; [intros a H; unfold lex_lt in H; lra|]. split; [intros a b c; unfold lex_lt; lra|].
  intros a b. unfold lex_lt.
  destruct (Rtotal_order (vx a) (vx b)) as [H|[H|H]]; auto.
  destruct (Rtotal_order (vy a) (vy b)) as [H'|[H'|H']]; [tauto| |right; right; right; auto].
  destruct (Rtotal_order (vz a) (vz b)) as [K|[K|K]]; [tauto| |right; right; right; split; auto].
  right. left. apply vect_eq; auto.
Qed.

(** ** Volumes *)

Lemma tetra_nonneg : forall a b c d, 0 <= tetrahedron_volume a b c d.
Proof. intros a b c d. unfold tetrahedron_volume. pose proof (Rabs_pos (dot (vsub a d) (cross (vsub b d) (vsub c d)))). lra. Qed.

Theorem displaced_nonneg : forall a b c na nb nc, 0 <= displaced_triangle_volume a b c na nb nc.
Proof.
  intros. unfold displaced_triangle_volume.
  pose proof (tetra_nonneg a b c nc). pose proof (tetra_nonneg a b nb nc). pose proof (tetra_nonneg a na nb nc). lra.
Qed.

Lemma tetra_eq : forall a b c d x, dot (vsub a d) (cross (vsub b d) (vsub c d)) = x \/
  dot (vsub a d) (cross (vsub b d) (vsub c d)) = - x -> tetrahedron_volume a b c d = Rabs x / 6.
Proof. intros a b c d x [H|H]; unfold tetrahedron_volume; rewrite H; auto. rewrite Rabs_Ropp. auto. Qed.

Theorem displaced_prism : forall a b c v,
  displaced_triangle_volume a b c (vadd a v) (vadd b v) (vadd c v) =
  Rabs (dot v (cross (vsub b a) (vsub c a))) / 2.
Proof.
  intros [a1 a2 a3] [b1 b2 b3] [c1 c2 c3] [v1 v2 v3]. unfold displaced_triangle_volume.
  set (x := dot _ _).
  rewrite !(tetra_eq _ _ _ _ x).
  - lra.
  - unfold x, dot, cross, vsub, vadd. cbn. first [left; ring|right; ring].
  - unfold x, dot, cross, vsub, vadd. cbn. first [left; ring|right; ring].
  - unfold x, dot, cross, vsub, vadd. cbn. first [left; ring|right; ring].
Qed.

Lemma cross_shift : forall a b c, cross (vsub b a) (vsub c b) = cross (vsub b a) (vsub c a).
Proof. intros a b c. unfold cross, vsub. cbn. f_equal; ring. Qed.

Theorem displaced_area_height : forall a b c v n r, normal_orth (Tri a b c r) = Ok n ->
  displaced_triangle_volume a b c (vadd a v) (vadd b v) (vadd c v) = area (Tri a b c r) * Rabs (dot v n).
Proof.
  intros a b c v n r H. rewrite displaced_prism. unfold normal_orth, orth, vdivr in H. cbn in H. unfold area. cbn.
  rewrite cross_shift in *. set (w := cross (vsub b a) (vsub c a)) in *.
  destruct (Reqb (vmod w) 0) eqn:E; [discriminate|]. apply Reqb_false in E. injection H as <-.
  assert (P : 0 < vmod w) by (pose proof (vmod_nonneg w); lra).
  replace (dot v (vmul w (1 / vmod w))) with (dot v w * / vmod w) by (unfold dot, vmul; cbn; field; auto).
  rewrite Rabs_mult, (Rabs_right (/ vmod w)) by (apply Rle_ge, Rlt_le, Rinv_0_lt_compat; auto). field. auto.
Qed.

Theorem displaced_none : forall a b c, displaced_triangle_volume a b c a b c = 0.
Proof.
  intros a b c. pose proof (displaced_prism a b c (V3 0 0 0)) as H.
  replace (vadd a (V3 0 0 0)) with a in H by (apply vect_eq; cbn; ring).
  replace (vadd b (V3 0 0 0)) with b in H by (apply vect_eq; cbn; ring).
  replace (vadd c (V3 0 0 0)) with c in H by (apply vect_eq; cbn; ring).
  rewrite H. unfold dot. cbn. replace (_ + _ + _) with 0 by ring. rewrite Rabs_R0. lra.
Qed.

(** Moving the whole picture does not change the volume. *)
Theorem displaced_translate : forall a b c na nb nc v,
  displaced_triangle_volume (vadd a v) (vadd b v) (vadd c v) (vadd na v) (vadd nb v) (vadd nc v) =
  displaced_triangle_volume a b c na nb nc.
Proof.
  assert (S : forall a b v, vsub (vadd a v) (vadd b v) = vsub a b) by (intros; apply vect_eq; cbn; ring).
  intros. unfold displaced_triangle_volume, tetrahedron_volume. rewrite !S. auto.
Qed.

(** A tetrahedron has the same volume in whatever order its corners are given. *)
Theorem tetra_swap : forall a b c d,
  tetrahedron_volume b a c d = tetrahedron_volume a b c d /\
  tetrahedron_volume b c a d = tetrahedron_volume a b c d /\
  tetrahedron_volume d b c a = tetrahedron_volume a b c d.
Proof.
  intros a b c d. set (x := dot (vsub a d) (cross (vsub b d) (vsub c d))).
  rewrite (tetra_eq a b c d x) by (left; auto).
  split; [|split]; apply tetra_eq; unfold x, dot, cross, vsub; cbn; first [left; ring|right; ring].
Qed.

(** ** Counterexamples *)

Lemma round10_int : forall z, round10 (IZR z / 10000000000) = IZR z / 10000000000.
Proof.
  intros z. unfold round10. replace (IZR z / 10000000000 * 10000000000) with (IZR z) by field.
  assert (E : Int_part (IZR z) = z).
  { destruct (base_Int_part (IZR z)) as (H1 & H2). apply le_IZR in H1.
    assert (H3 : IZR z < IZR (Int_part (IZR z)) + IZR 1) by lra. rewrite <- plus_IZR in H3. apply lt_IZR in H3. lia. }
  rewrite E. replace (IZR z - IZR z) with 0 by ring. rdec. auto.
Qed.

Lemma round10_1 : round10 1 = 1.
Proof. replace 1 with (IZR 10000000000 / 10000000000) at 1 by field. rewrite round10_int. field. Qed.

Lemma round10_m1 : round10 (-1) = -1.
Proof. replace (-1) with (IZR (-10000000000) / 10000000000) at 1 by field. rewrite round10_int. field. Qed.

Ltac rabs := repeat (first [rewrite Rabs_right by lra|rewrite Rabs_left1 by lra]).

(** A small triangle and a short segment. *)
Definition small_triangle : triangle := Tri (V3 0 0 0) (V3 (/ 10000) 0 0) (V3 0 (/ 10000) 0) 0.
Definition short_segment : segment := Seg (V3 (/ 100000) (/ 100000) (- / 10000)) (V3 (/ 100000) (/ 100000) (/ 10000)).

Theorem segment_small_fails : exists t s x, spanned t s <> 0 /\ common t s x /\ intersection_with_segment t s = [].
Proof.
  exists small_triangle, short_segment, (V3 (/ 100000) (/ 100000) 0).
  split; [unfold spanned, dot, cross; cbn; lra|]. split.
  - split.
    + exists (8 / 10), (1 / 10), (1 / 10). cbn. repeat split; lra.
    + exists (1 / 2). cbn. repeat split; lra.
  - unfold intersection_with_segment. rewrite spanned_det.
    replace (Rltb (Rabs (- spanned small_triangle short_segment)) eps10) with true.
    2:{ symmetry. apply Rltb_true. unfold spanned, dot, cross, eps10. cbn. rabs. lra. }
    unfold point_in_one_plane. cbn [ta tb tc sa sb small_triangle short_segment].
    match goal with |- context [Reqb ?a 0] => replace (Reqb a 0) with false end; [reflexivity|].
    symmetry. apply Reqb_false. unfold det3. cbn. lra.
Qed.

(** A segment in the plane of the triangle that touches a corner. *)
Definition unit_triangle : triangle := Tri (V3 0 0 0) (V3 1 0 0) (V3 0 1 0) 0.
Definition touching : segment := Seg (V3 1 (-1) 0) (V3 1 1 0).

Lemma touching_common : common unit_triangle touching (V3 1 0 0).
Proof.
  split; [exists 0, 1, 0; cbn; repeat split; lra|exists (1 / 2); cbn; repeat split; lra].
Qed.

Lemma sl_pos : forall a b x, 0 < a -> - b = x * a -> solve_linear a b = Some (Fin x, PInf).
Proof. intros a b x H K. unfold solve_linear. rdec. rewrite K. replace (x * a / a) with x by (field; lra). auto. Qed.
Lemma sl_neg : forall a b x, a < 0 -> - b = x * a -> solve_linear a b = Some (NInf, Fin x).
Proof. intros a b x H K. unfold solve_linear. rdec. rewrite K. replace (x * a / a) with x by (field; lra). auto. Qed.
Lemma sl_zero : forall a b, a = 0 -> 0 <= b -> solve_linear a b = Some (NInf, PInf).
Proof. intros a b H K. unfold solve_linear. rdec. auto. Qed.

Lemma flat_unit : forall t s d, det3 (vsub (tb t) (ta t)) (vsub (tc t) (ta t)) (vsub (sa s) (sb s)) = 0 ->
  point_in_one_plane t (sa s) = true -> point_in_one_plane t (sb s) = true ->
  round10 (det2 (vx (tb t) - vx (ta t)) (vx (tc t) - vx (ta t)) (vy (tb t) - vy (ta t)) (vy (tc t) - vy (ta t))) = d -> d <> 0 ->
  intersection_with_segment t s =
  map (fun fi => vadd (sa s) (vmul (vsub (sb s) (sa s)) fi))
      (plane_params (vsub (tb t) (ta t)) (vsub (tc t) (ta t)) (vsub (sb s) (sa s)) (vsub (sa s) (ta t)) 0 1 d).
Proof.
  intros t s d H H1 H2 D N. unfold intersection_with_segment. rewrite H, Rabs_R0, H1, H2. pose proof eps10_pos. rdec. cbn [andb].
  cbn [coord vsub vx vy vz]. rewrite D. replace (Reqb d 0) with false by (symmetry; apply Reqb_false; auto). auto.
Qed.

Lemma touching_none : intersection_with_segment unit_triangle touching = [].
Proof.
  rewrite (flat_unit _ _ 1).
  - unfold plane_params, det2. cbn [coord vsub vx vy vz ta tb tc sa sb unit_triangle touching].
    rewrite (sl_zero (_ / 1)) by lra. rewrite (sl_pos _ _ (1 / 2)) by lra. rewrite (sl_neg _ _ (1 / 2)) by lra.
    cbn [flat_map app intersection_of_intervals fst snd emax emin elt]. rdec. cbn [eadd elt emax emin orb].
    unfold eps10. rdec. auto.
  - unfold det3. cbn. ring.
  - unfold point_in_one_plane, det3. apply Reqb_true. cbn. ring.
  - unfold point_in_one_plane, det3. apply Reqb_true. cbn. ring.
  - unfold det2. cbn. replace (_ - _) with 1 by ring. apply round10_1.
  - lra.
Qed.

Theorem touching_cloud : exists l s t x c, In t l /\ common t s x /\ triangles_cloud l = Ok c /\ first_intersection s c = Ok None.
Proof.
  exists [unit_triangle], touching, unit_triangle, (V3 1 0 0). destruct (cloud_built [unit_triangle]) as (c & E & _); [discriminate|].
  exists c. split; [left; auto|]. split; [apply touching_common|]. split; auto.
  unfold triangles_cloud, build_cloud in E. cbn [length] in E.
  destruct (box_of (flat_map points [unit_triangle])) as [b|]; [|discriminate]. cbn in E. injection E as <-.
  cbn [first_intersection]. destruct (is_intersect_with_segment b touching); auto. cbn. unfold hits. rewrite touching_none. auto.
Qed.

(** A segment in the plane of the triangle that ends just before the triangle. *)
Definition ahead_triangle : triangle :=
  Tri (V3 (1 + eps10 / 2) 0 0) (V3 (3 + eps10 / 2) 1 0) (V3 (eps10 / 2) (-1) 0) 0.
Definition ahead_segment : segment := Seg (V3 0 0 0) (V3 1 0 0).

Lemma ahead_none : forall x, ~ common ahead_triangle ahead_segment x.
Proof.
  intros x ((u & v & w & Hu & Hv & Hw & S & X & Y & Z1) & (t & T & X' & Y' & Z')). cbn in *. pose proof eps10_pos. nra.
Qed.

Lemma ahead_reported : intersection_with_segment ahead_triangle ahead_segment = [V3 (1 + eps10 / 2) 0 0].
Proof.
  rewrite (flat_unit _ _ (-1)).
  - unfold plane_params, det2. cbn [coord vsub vx vy vz ta tb tc sa sb ahead_triangle ahead_segment].
    rewrite (sl_pos (((1 - 0) * _ - _) / _) _ (1 + eps10 / 2)) by lra.
    rewrite (sl_pos _ _ (1 + eps10 / 2)) by lra. rewrite (sl_neg _ _ (3 / 2 + eps10 / 2)) by lra.
    cbn [flat_map app]. unfold intersection_of_intervals, emax, emin, eps10. cbn [fst snd elt]. rdec. cbn [elt eadd]. rdec.
    cbn [orb andb elt eclose eadd].
    match goal with |- context [isclose ?a ?b] => replace (isclose a b) with true end.
    + rdec. cbn [orb andb elt eclose eadd]. rdec. cbn. f_equal. apply vect_eq; cbn; lra.
    + symmetry. unfold isclose. apply Rleb_true. unfold eps9. rabs. unfold Rmax. destruct (Rle_dec _ _); lra.
  - unfold det3. cbn. ring.
  - unfold point_in_one_plane, det3. apply Reqb_true. cbn. ring.
  - unfold point_in_one_plane, det3. apply Reqb_true. cbn. ring.
  - unfold det2. cbn. replace (_ - _) with (-1) by ring. apply round10_m1.
  - lra.
Qed.

Theorem ahead_cloud : exists l s c t, (forall x u, In u l -> ~ common u s x) /\ triangles_cloud l = Ok c /\
  first_intersection s c = Ok (Some t).
Proof.
  exists [ahead_triangle], ahead_segment. destruct (cloud_built [ahead_triangle]) as (c & E & _); [discriminate|].
  exists c, ahead_triangle. split; [intros x u [<-|[]]; apply ahead_none|]. split; auto.
  unfold triangles_cloud, build_cloud in E. cbn [length] in E.
  destruct (box_of_ok (flat_map points [ahead_triangle])) as (b & B & Hin & _); [discriminate|]. rewrite B in E. cbn in E.
  injection E as <-. cbn [first_intersection]. destruct (is_intersect_with_segment b ahead_segment) eqn:K.
  - cbn. unfold hits. rewrite ahead_reported. auto.
  - exfalso. apply (box_segment_ok _ _ K). exists (V3 (1 / 2) 0 0). pose proof eps10_pos.
    assert (eps10 < 1) by (unfold eps10; lra). split.
    + assert (H1 : in_box b (V3 (3 + eps10 / 2) 1 0)) by (apply Hin; cbn; auto).
      assert (H2 : in_box b (V3 (eps10 / 2) (-1) 0)) by (apply Hin; cbn; auto).
      unfold in_box in *. cbn in *. lra.
    + exists (1 / 2). cbn. lra.
Qed.

Theorem box_box_common : forall b o, (exists p, in_box b p) -> (exists p, in_box o p) ->
  (is_potential_intersect_with_box b o = true <-> exists p, in_box b p /\ in_box o p).
Proof.
  intros b o (p & P) (q & Q). apply box_box_ok; unfold proper, in_box in *; lra.
Qed.

(** An upright segment through the unit triangle. *)
Definition upright : segment := Seg (V3 (1 / 4) (1 / 4) (-1)) (V3 (1 / 4) (1 / 4) 1).
Definition far_triangle : triangle := Tri (V3 5 5 0) (V3 6 5 0) (V3 5 6 1) 1.

Lemma upright_general : spanned unit_triangle upright = 2 /\ spanned far_triangle upright = 2 /\
  common unit_triangle upright (V3 (1 / 4) (1 / 4) 0).
Proof.
  split; [unfold spanned, dot, cross; cbn; lra|]. split; [unfold spanned, dot, cross; cbn; lra|]. split.
  - exists (1 / 2), (1 / 4), (1 / 4). cbn. lra.
  - exists (1 / 2). cbn. lra.
Qed.
