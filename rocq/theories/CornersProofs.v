(** Proofs about planes and corners of triangles. *)

From Coq Require Import Reals Bool List Lra Lia Psatz.
From Verif Require Import Py Geom GeomSpec GeomProofs Cross Corners CornersSpec.
Import ListNotations.
Open Scope R_scope.

Lemma vect_zero_dec : forall v, v = V3 0 0 0 \/ v <> V3 0 0 0.
Proof.
  intros [x y z]. destruct (Req_EM_T x 0) as [->|N]; [|right; intros E; injection E; auto].
  destruct (Req_EM_T y 0) as [->|N]; [|right; intros E; injection E; auto].
  destruct (Req_EM_T z 0) as [->|N]; [left; reflexivity|right; intros E; injection E; auto].
Qed.

Lemma dot_self_pos : forall v, v <> V3 0 0 0 -> 0 < dot v v.
Proof.
  intros [x y z] N. unfold dot. cbn. destruct (Req_EM_T x 0) as [->|Nx]; [|nra].
  destruct (Req_EM_T y 0) as [->|Ny]; [|nra]. destruct (Req_EM_T z 0) as [->|Nz]; [exfalso; apply N; reflexivity|nra].
Qed.

Lemma plane_point : forall t p, solid t -> (point_in_one_plane t p = true <-> in_plane t p).
Proof.
  intros t p So. unfold point_in_one_plane. rewrite Reqb_true. split.
  - intros D. unfold solid in So. apply dot_self_pos in So. unfold in_plane.
    set (u := vsub (tb t) (ta t)) in *. set (v := vsub (tc t) (ta t)) in *. set (w := vsub p (ta t)) in *. set (n := cross u v) in *.
    exists (dot (cross w v) n / dot n n), (dot (cross u w) n / dot n n).
    assert (Ep : p = vadd (ta t) w) by (unfold w, vadd, vsub; destruct p, (ta t); cbn; f_equal; ring). rewrite Ep. f_equal.
    clear Ep. clearbody u v w.
    assert (Ex : forall cx cu cv, cx * dot n n = dot (cross w v) n * cu + dot (cross u w) n * cv -> cx = cu * (dot (cross w v) n / dot n n) + cv * (dot (cross u w) n / dot n n)).
    { intros cx cu cv E. apply (Rmult_eq_reg_r (dot n n)); [|lra]. rewrite E. field. lra. }
    assert (Hd : dot w n = 0). { rewrite <- D. unfold n, dot, det3, cross. cbn. ring. }
    apply vect_eq; unfold vadd, vmul; cbn [vx vy vz]; apply Ex.
    + replace (vx w * dot n n) with (dot (cross w v) n * vx u + dot (cross u w) n * vx v + dot w n * vx n); [rewrite Hd; ring|].
      unfold n, dot, cross; cbn; ring.
    + replace (vy w * dot n n) with (dot (cross w v) n * vy u + dot (cross u w) n * vy v + dot w n * vy n); [rewrite Hd; ring|].
      unfold n, dot, cross; cbn; ring.
    + replace (vz w * dot n n) with (dot (cross w v) n * vz u + dot (cross u w) n * vz v + dot w n * vz n); [rewrite Hd; ring|].
      unfold n, dot, cross; cbn; ring.
  - intros (s & r & ->). unfold det3, vsub, vadd, vmul. cbn. ring.
Qed.

Theorem plane_iff : forall t u, solid t -> (in_one_plane t u = true <-> in_plane t (ta u) /\ in_plane t (tb u) /\ in_plane t (tc u)).
Proof.
  intros t u So. unfold in_one_plane. rewrite !andb_true_iff, !(plane_point t _ So). tauto.
Qed.

Theorem plane_flat : forall t u, ~ solid t -> in_one_plane t u = true.
Proof.
  intros t u N. assert (E : cross (vsub (tb t) (ta t)) (vsub (tc t) (ta t)) = V3 0 0 0).
  { destruct (vect_zero_dec (cross (vsub (tb t) (ta t)) (vsub (tc t) (ta t)))); [assumption|contradiction]. }
  assert (H : forall p, point_in_one_plane t p = true).
  { intros p. unfold point_in_one_plane. apply Reqb_true.
    replace (det3 (vsub p (ta t)) (vsub (tb t) (ta t)) (vsub (tc t) (ta t))) with
      (dot (vsub p (ta t)) (cross (vsub (tb t) (ta t)) (vsub (tc t) (ta t)))) by (unfold dot, det3, cross, vsub; cbn; ring).
    rewrite E. unfold dot. cbn. ring. }
  unfold in_one_plane. rewrite !H. reflexivity.
Qed.

Theorem plane_symmetric : forall t u, solid t -> solid u -> in_one_plane t u = in_one_plane u t.
Proof.
  assert (H : forall t u, solid t -> solid u -> in_one_plane t u = true -> in_one_plane u t = true).
  { intros t u St Su E. apply (plane_iff t u St) in E as ((s1 & r1 & E1) & (s2 & r2 & E2) & (s3 & r3 & E3)).
    unfold in_one_plane, point_in_one_plane. rewrite !andb_true_iff, !Reqb_true, E1, E2, E3.
    repeat split; unfold det3, vsub, vadd, vmul; cbn; ring. }
  intros t u St Su. destruct (in_one_plane t u) eqn:E; destruct (in_one_plane u t) eqn:E'; try reflexivity.
  - rewrite (H t u St Su E) in E'. discriminate.
  - rewrite (H u t Su St E') in E. discriminate.
Qed.

(* ================================================================== *)
(** ** Angles *)

Lemma vmod_pos : forall v, v <> V3 0 0 0 -> 0 < vmod v.
Proof. intros v N. apply sqrt_lt_R0. unfold mod2. apply dot_self_pos. exact N. Qed.

Lemma vmod_zero : vmod (V3 0 0 0) = 0.
Proof. unfold vmod, mod2, dot. cbn. replace (0 * 0 + 0 * 0 + 0 * 0) with 0 by ring. apply sqrt_0. Qed.

Lemma vmod_sqr : forall v, vmod v * vmod v = dot v v.
Proof. intros v. unfold vmod. apply sqrt_sqrt. unfold mod2, dot. nra. Qed.

Lemma cauchy : forall u v, u <> V3 0 0 0 -> v <> V3 0 0 0 -> -1 <= dot u v / (vmod u * vmod v) <= 1.
Proof.
  intros u v Hu Hv. pose proof (vmod_pos u Hu) as Pu. pose proof (vmod_pos v Hv) as Pv.
  assert (C : dot u v * dot u v <= (vmod u * vmod v) * (vmod u * vmod v)).
  { replace ((vmod u * vmod v) * (vmod u * vmod v)) with ((vmod u * vmod u) * (vmod v * vmod v)) by ring. rewrite !vmod_sqr.
    assert (E : dot u u * dot v v - dot u v * dot u v = dot (cross u v) (cross u v)) by (unfold dot, cross; cbn; ring).
    assert (0 <= dot (cross u v) (cross u v)) by (unfold dot; nra). lra. }
  assert (P : 0 < vmod u * vmod v) by nra. set (m := vmod u * vmod v) in *. clearbody m.
  assert (B : - m <= dot u v <= m) by (split; nra). split.
  - apply (Rmult_le_reg_r m); [exact P|]. unfold Rdiv. rewrite Rmult_assoc, Rinv_l; lra.
  - apply (Rmult_le_reg_r m); [exact P|]. unfold Rdiv. rewrite Rmult_assoc, Rinv_l; lra.
Qed.

Lemma angle_ok : forall u v, u <> V3 0 0 0 -> v <> V3 0 0 0 ->
  get_angle_in_deg u v = Ok (acos (dot u v / (vmod u * vmod v)) * (180 / PI)).
Proof.
  intros u v Hu Hv. unfold get_angle_in_deg, get_angle_in_rad, angle_cos.
  replace (Reqb (vmod u * vmod v) 0) with false; [reflexivity|]. symmetry. apply Reqb_false.
  pose proof (vmod_pos u Hu). pose proof (vmod_pos v Hv). nra.
Qed.

Lemma angle_raise : forall u v, u = V3 0 0 0 \/ v = V3 0 0 0 -> get_angle_in_deg u v = Raise EZeroDivisionError.
Proof.
  intros u v H. unfold get_angle_in_deg, get_angle_in_rad, angle_cos.
  replace (Reqb (vmod u * vmod v) 0) with true; [reflexivity|]. symmetry. apply Reqb_true.
  destruct H as [->| ->]; rewrite vmod_zero; ring.
Qed.

Lemma degrees_unique : forall u v x y, degrees u v x -> degrees u v y -> x = y.
Proof.
  intros u v x y (Hu & Hv & Bx & Ex) (_ & _ & By & Ey). pose proof (vmod_pos u Hu) as Pu. pose proof (vmod_pos v Hv) as Pv.
  assert (E : cos (x * (PI / 180)) = cos (y * (PI / 180))).
  { apply (Rmult_eq_reg_l (vmod u * vmod v)); [congruence|nra]. }
  pose proof PI_RGT_0 as P.
  assert (Rg : forall z, 0 <= z <= 180 -> 0 <= z * (PI / 180) <= PI) by (intros z Hz; split; nra).
  assert (Q : x * (PI / 180) = y * (PI / 180)).
  { rewrite <- (acos_cos (x * (PI / 180)) (Rg x Bx)), <- (acos_cos (y * (PI / 180)) (Rg y By)). rewrite E. reflexivity. }
  apply (Rmult_eq_reg_r (PI / 180)); [exact Q|nra].
Qed.

Theorem angle_iff : forall u v x, get_angle_in_deg u v = Ok x <-> degrees u v x.
Proof.
  intros u v x. pose proof PI_RGT_0 as P.
  assert (A : u <> V3 0 0 0 -> v <> V3 0 0 0 -> degrees u v (acos (dot u v / (vmod u * vmod v)) * (180 / PI))).
  { intros Hu Hv. pose proof (cauchy u v Hu Hv) as C. pose proof (acos_bound (dot u v / (vmod u * vmod v))) as B.
    split; [exact Hu|]. split; [exact Hv|]. split.
    - assert (E : 180 = PI * (180 / PI)) by (field; lra). assert (0 < 180 / PI) by (apply Rdiv_lt_0_compat; lra). split; [nra|]. rewrite E at 2. nra.
    - replace (acos (dot u v / (vmod u * vmod v)) * (180 / PI) * (PI / 180)) with (acos (dot u v / (vmod u * vmod v))) by (field; lra).
      rewrite cos_acos; [|exact C]. pose proof (vmod_pos u Hu). pose proof (vmod_pos v Hv). field. split; lra. }
  destruct (vect_zero_dec u) as [Eu|Hu].
  { rewrite angle_raise by (left; exact Eu). split; [discriminate|]. intros (N & _). contradiction. }
  destruct (vect_zero_dec v) as [Ev|Hv].
  { rewrite angle_raise by (right; exact Ev). split; [discriminate|]. intros (_ & N & _). contradiction. }
  rewrite (angle_ok u v Hu Hv). split.
  - intros E. injection E as <-. apply A; assumption.
  - intros D. f_equal. apply (degrees_unique u v); [apply A; assumption|exact D].
Qed.

Lemma sub_zero : forall a b, vsub a b = V3 0 0 0 <-> a = b.
Proof.
  intros [x y z] [x' y' z']. unfold vsub. cbn [vx vy vz]. split.
  - intros E. injection E as E1 E2 E3. f_equal; lra.
  - intros E. injection E as <- <- <-. f_equal; ring.
Qed.

Lemma corners_there : forall t, three_points t -> exists x y z, corners_of t x y z.
Proof.
  intros t (A & B & C).
  assert (H : forall a b c, b <> a -> c <> a -> exists x, degrees (vsub b a) (vsub c a) x).
  { intros a b c N M. exists (acos (dot (vsub b a) (vsub c a) / (vmod (vsub b a) * vmod (vsub c a))) * (180 / PI)). apply angle_iff. apply angle_ok; rewrite sub_zero; assumption. }
  destruct (H (ta t) (tb t) (tc t)) as (x & X); [congruence|congruence|].
  destruct (H (tb t) (ta t) (tc t)) as (y & Y); [congruence|congruence|].
  destruct (H (tc t) (ta t) (tb t)) as (z & Z); [congruence|congruence|].
  exists x, y, z. split; [exact X|]. split; [exact Y|exact Z].
Qed.

Theorem all_corners_iff : forall t x y z corner, corners_of t x y z ->
  exists b, all_corners_smaller t corner = Ok b /\ (b = true <-> x < corner /\ y < corner /\ z < corner).
Proof.
  intros t x y z corner (X & Y & Z). apply angle_iff in X. apply angle_iff in Y. apply angle_iff in Z.
  unfold all_corners_smaller. rewrite X. cbn [rbind]. rewrite Y. cbn [rbind]. rewrite Z. cbn [rbind].
  eexists. split; [reflexivity|]. rewrite !andb_true_iff, !Rltb_true. tauto.
Qed.

Theorem all_corners_raise : forall t corner, ~ three_points t -> all_corners_smaller t corner = Raise EZeroDivisionError.
Proof.
  intros t corner N. unfold all_corners_smaller.
  assert (D : forall a b : vect, a = b \/ a <> b). { intros a b. destruct (vect_zero_dec (vsub a b)) as [E|E]; rewrite sub_zero in E; auto. }
  destruct (D (ta t) (tb t)) as [E|Nab].
  { rewrite (angle_raise (vsub (tb t) (ta t))); [reflexivity|]. left. apply sub_zero. congruence. }
  destruct (D (tc t) (ta t)) as [E|Nca].
  { rewrite (angle_raise (vsub (tb t) (ta t))); [reflexivity|]. right. apply sub_zero. congruence. }
  destruct (D (tb t) (tc t)) as [E|Nbc]; [|exfalso; apply N; split; [|split]; assumption].
  rewrite angle_ok; [|rewrite sub_zero; congruence|rewrite sub_zero; congruence]. cbn [rbind].
  rewrite (angle_raise (vsub (ta t) (tb t))); [reflexivity|]. right. apply sub_zero. congruence.
Qed.

(** The cosines and sines of the three corners. *)
Lemma sums : forall p q r d s a b c, 0 < p -> 0 < q -> 0 < r -> r * r = p * p + q * q - 2 * d -> s * s = p * p * (q * q) - d * d ->
  p * q * cos a = d -> p * r * cos b = p * p - d -> q * r * cos c = q * q - d ->
  p * q * sin a = s -> p * r * sin b = s -> q * r * sin c = s -> cos (a + b + c) = -1.
Proof.
  intros p q r d s a b c Pp Pq Pr Er Es Ca Cb Cc Sa Sb Sc.
  assert (E1 : cos (a + b) = - cos c).
  { rewrite cos_plus. apply (Rmult_eq_reg_l (p * p * q * r)); [|assert (0 < p * p * q * r) by (repeat apply Rmult_lt_0_compat; assumption); lra].
    replace (p * p * q * r * (cos a * cos b - sin a * sin b)) with ((p * q * cos a) * (p * r * cos b) - (p * q * sin a) * (p * r * sin b)) by ring.
    replace (p * p * q * r * - cos c) with (- (p * p) * (q * r * cos c)) by ring. rewrite Ca, Cb, Cc, Sa, Sb. rewrite Es. ring. }
  assert (E2 : sin (a + b) = sin c).
  { rewrite sin_plus. apply (Rmult_eq_reg_l (p * p * q * r)); [|assert (0 < p * p * q * r) by (repeat apply Rmult_lt_0_compat; assumption); lra].
    replace (p * p * q * r * (sin a * cos b + cos a * sin b)) with ((p * q * sin a) * (p * r * cos b) + (p * q * cos a) * (p * r * sin b)) by ring.
    replace (p * p * q * r * sin c) with (p * p * (q * r * sin c)) by ring. rewrite Ca, Cb, Sa, Sb, Sc. ring. }
  rewrite cos_plus, E1, E2. pose proof (sin2_cos2 c) as H. unfold Rsqr in H. lra.
Qed.

Lemma sin_of : forall m a d s, 0 < m -> 0 <= a <= PI -> 0 <= s -> m * cos a = d -> s * s = m * m - d * d -> m * sin a = s.
Proof.
  intros m a d s Pm Ba Ps C E. pose proof (sin_ge_0 a (proj1 Ba) (proj2 Ba)) as H. pose proof (sin2_cos2 a) as T. unfold Rsqr in T.
  assert (Q : (m * sin a) * (m * sin a) = s * s).
  { rewrite E, <- C. replace (m * sin a * (m * sin a)) with (m * m * (sin a * sin a)) by ring.
    replace (sin a * sin a) with (1 - cos a * cos a) by lra. ring. }
  assert (0 <= m * sin a) by nra. nra.
Qed.

Lemma only_pi : forall x, 0 <= x <= 3 * PI -> x <> 3 * PI -> cos x = -1 -> x = PI.
Proof.
  intros x B N E. pose proof PI_RGT_0 as P.
  assert (C : cos (2 * ((x - PI) / 2)) = 1).
  { replace (2 * ((x - PI) / 2)) with (x - PI) by field. rewrite cos_minus, E, cos_PI, sin_PI. ring. }
  rewrite cos_2a_sin in C. assert (S0 : sin ((x - PI) / 2) = 0) by nra.
  apply sin_eq_0_0 in S0 as (k & Ek).
  assert (K : (-1 < k < 1)%Z).
  { split; apply lt_IZR.
    - apply (Rmult_lt_reg_r PI); [exact P|]. rewrite <- Ek. lra.
    - apply (Rmult_lt_reg_r PI); [exact P|]. rewrite <- Ek. lra. }
  assert (k = 0%Z) as -> by lia. lra.
Qed.

Theorem corners_sum : forall t x y z, corners_of t x y z -> x + y + z = 180.
Proof.
  intros t x y z ((Hu & Hv & Bx & Ex) & (_ & Hw & By & Ey) & (_ & _ & Bz & Ez)).
  set (u := vsub (tb t) (ta t)) in *. set (v := vsub (tc t) (ta t)) in *.
  set (w := vsub (tc t) (tb t)) in *.
  pose proof (vmod_pos u Hu) as Pp. pose proof (vmod_pos v Hv) as Pq. pose proof (vmod_pos w Hw) as Pr.
  assert (M1 : vmod (vsub (ta t) (tb t)) = vmod u) by (unfold vmod, mod2, u, dot, vsub; cbn; f_equal; ring).
  assert (M2 : vmod (vsub (ta t) (tc t)) = vmod v) by (unfold vmod, mod2, v, dot, vsub; cbn; f_equal; ring).
  assert (M3 : vmod (vsub (tb t) (tc t)) = vmod w) by (unfold vmod, mod2, w, dot, vsub; cbn; f_equal; ring).
  rewrite M1 in Ey. rewrite M2, M3 in Ez.
  assert (D1 : dot (vsub (ta t) (tb t)) w = dot u u - dot u v) by (unfold u, v, w, dot, vsub; cbn; ring).
  assert (D2 : dot (vsub (ta t) (tc t)) (vsub (tb t) (tc t)) = dot v v - dot u v) by (unfold u, v, dot, vsub; cbn; ring).
  assert (D3 : dot w w = dot u u + dot v v - 2 * dot u v) by (unfold u, v, w, dot, vsub; cbn; ring).
  rewrite D1 in Ey. rewrite D2 in Ez. rewrite <- !vmod_sqr in *.
  assert (Cs : 0 <= vmod u * vmod u * (vmod v * vmod v) - dot u v * dot u v).
  { rewrite !vmod_sqr. assert (E : dot u u * dot v v - dot u v * dot u v = dot (cross u v) (cross u v)) by (unfold dot, cross; cbn; ring).
    rewrite E. unfold dot. nra. }
  clear M1 M2 M3 D1 D2. set (p := vmod u) in *. set (q := vmod v) in *. set (r := vmod w) in *. set (d := dot u v) in *.
  set (s := sqrt (p * p * (q * q) - d * d)).
  assert (Es : s * s = p * p * (q * q) - d * d) by (apply sqrt_sqrt; exact Cs).
  assert (Ps : 0 <= s) by (apply sqrt_pos).
  clearbody p q r d s. clear u v w Hu Hv Hw Cs.
  pose proof PI_RGT_0 as P. set (a := x * (PI / 180)) in *. set (b := y * (PI / 180)) in *. set (c := z * (PI / 180)) in *.
  assert (Rg : forall k, 0 <= k <= 180 -> 0 <= k * (PI / 180) <= PI) by (intros k Hk; split; nra).
  pose proof (Rg x Bx) as Ra. pose proof (Rg y By) as Rb. pose proof (Rg z Bz) as Rc. fold a in Ra. fold b in Rb. fold c in Rc.
  assert (Pa : 0 < p * q) by nra. assert (Pb : 0 < p * r) by nra. assert (Pc : 0 < q * r) by nra.
  assert (S : cos (a + b + c) = -1).
  { apply (sums p q r d s a b c Pp Pq Pr D3 Es); [exact Ex|exact Ey| | | |].
    - replace (q * r * cos c) with (q * r * cos c) by ring. exact Ez.
    - apply (sin_of (p * q) a d s Pa Ra Ps Ex). rewrite Es. ring.
    - apply (sin_of (p * r) b (p * p - d) s Pb Rb Ps Ey). rewrite Es. replace (p * r * (p * r)) with (p * p * (r * r)) by ring. rewrite D3. ring.
    - apply (sin_of (q * r) c (q * q - d) s Pc Rc Ps Ez). rewrite Es. replace (q * r * (q * r)) with (q * q * (r * r)) by ring. rewrite D3. ring. }
  assert (N3 : a + b + c <> 3 * PI).
  { intros E. assert (a = PI /\ b = PI) as [-> ->] by lra. rewrite cos_PI in Ex, Ey. nra. }
  assert (T : a + b + c = PI) by (apply only_pi; [lra|exact N3|exact S]).
  unfold a, b, c in T. apply (Rmult_eq_reg_r (PI / 180)); [|nra]. replace ((x + y + z) * (PI / 180)) with (x * (PI / 180) + y * (PI / 180) + z * (PI / 180)) by ring.
  rewrite T. field.
Qed.

Theorem corners_small : forall t corner, corner <= 60 -> all_corners_smaller t corner <> Ok true.
Proof.
  intros t corner H E.
  assert (T : three_points t \/ ~ three_points t).
  { assert (D : forall a b : vect, a = b \/ a <> b). { intros a b. destruct (vect_zero_dec (vsub a b)) as [E'|E']; rewrite sub_zero in E'; auto. }
    unfold three_points. destruct (D (ta t) (tb t)), (D (tb t) (tc t)), (D (tc t) (ta t)); tauto. }
  destruct T as [T|T]; [|rewrite (all_corners_raise t corner T) in E; discriminate].
  destruct (corners_there t T) as (x & y & z & C). destruct (all_corners_iff t x y z corner C) as (b & Eb & I).
  rewrite Eb in E. injection E as ->. destruct (proj1 I eq_refl) as (A & B & D). pose proof (corners_sum t x y z C). lra.
Qed.

Theorem corners_large : forall t corner, three_points t -> 180 < corner -> all_corners_smaller t corner = Ok true.
Proof.
  intros t corner T H. destruct (corners_there t T) as (x & y & z & C). destruct (all_corners_iff t x y z corner C) as (b & Eb & I).
  rewrite Eb. f_equal. apply I. destruct C as ((_ & _ & X & _) & (_ & _ & Y & _) & (_ & _ & Z & _)). lra.
Qed.

Lemma acute_cos : forall u v x, degrees u v x -> (x < 90 <-> 0 < dot u v).
Proof.
  intros u v x (Hu & Hv & B & E). pose proof (vmod_pos u Hu) as Pu. pose proof (vmod_pos v Hv) as Pv. pose proof PI_RGT_0 as P.
  rewrite <- E. split.
  - intros L. assert (0 < cos (x * (PI / 180))) by (apply cos_gt_0; nra). apply Rmult_lt_0_compat; [nra|assumption].
  - intros L. destruct (Rlt_le_dec x 90) as [H|H]; [exact H|]. exfalso.
    assert (cos (x * (PI / 180)) <= 0). { apply cos_le_0; nra. }
    assert (0 < vmod u * vmod v) by nra. nra.
Qed.

Theorem corners_acute : forall t, three_points t -> exists b, all_corners_smaller t 90 = Ok b /\
  (b = true <-> 0 < dot (vsub (tb t) (ta t)) (vsub (tc t) (ta t)) /\ 0 < dot (vsub (ta t) (tb t)) (vsub (tc t) (tb t)) /\ 0 < dot (vsub (ta t) (tc t)) (vsub (tb t) (tc t))).
Proof.
  intros t T. destruct (corners_there t T) as (x & y & z & C). destruct (all_corners_iff t x y z 90 C) as (b & Eb & I).
  exists b. split; [exact Eb|]. rewrite I. destruct C as (X & Y & Z). rewrite (acute_cos _ _ x X), (acute_cos _ _ y Y), (acute_cos _ _ z Z). tauto.
Qed.
