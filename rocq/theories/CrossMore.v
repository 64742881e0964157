(** Small triangles, points in triangles, equality of triangles. *)

From Coq Require Import ZArith Reals List Bool Lra Lia Permutation.
From Verif Require Import Py Geom GeomSpec GeomProofs CloudProofs GeomMore DirProofs DropsProofs DropsCases Cross CrossSpec CrossProofs.
Import ListNotations.
Open Scope R_scope.

(** ** Small triangles. *)
Lemma cross_mod : forall a b, vmod (cross a b) <= vmod a * vmod b.
Proof.
  intros a b. pose proof (vmod_nonneg a). pose proof (vmod_nonneg b). pose proof (vmod_nonneg (cross a b)).
  assert (E : vmod (cross a b) * vmod (cross a b) = (vmod a * vmod a) * (vmod b * vmod b) - dot a b * dot a b).
  { rewrite <- !dot_self. unfold dot, cross. cbn. ring. }
  destruct (Rle_dec (vmod (cross a b)) (vmod a * vmod b)); auto.
  assert (0 <= vmod a * vmod b) by (apply Rmult_le_pos; auto).
  assert (vmod a * vmod b * (vmod a * vmod b) < vmod (cross a b) * vmod (cross a b)) by (apply Rmult_le_0_lt_compat; lra).
  nra.
Qed.

Lemma dot_abs : forall a b, Rabs (dot a b) <= vmod a * vmod b.
Proof.
  intros a b. apply Rabs_le. split; [|apply cauchy].
  assert (H := cauchy (vmul a (-1)) b). assert (E : vmod (vmul a (-1)) = vmod a).
  { unfold vmod, mod2, dot, vmul. cbn. f_equal. ring. }
  assert (D : dot (vmul a (-1)) b = - dot a b) by (unfold dot, vmul; cbn; ring). rewrite E, D in H. lra.
Qed.

Lemma small_spanned : forall t s h, sides_below h t -> dist_to (sa s) (sb s) < h -> Rabs (spanned t s) < h * h * h.
Proof.
  intros t s h Ht Hs. unfold spanned. set (b := vsub (tb t) (ta t)). set (c := vsub (tc t) (ta t)). set (q := vsub (sb s) (sa s)).
  assert (B : vmod b < h). { pose proof (Ht _ (or_introl eq_refl)) as H. cbn [sa sb] in H. rewrite dist_sym in H. exact H. }
  assert (C : vmod c < h). { pose proof (Ht _ (or_intror (or_intror (or_introl eq_refl)))) as H. exact H. }
  assert (Q : vmod q < h). { rewrite dist_sym in Hs. exact Hs. }
  pose proof (vmod_nonneg b). pose proof (vmod_nonneg c). pose proof (vmod_nonneg q).
  eapply Rle_lt_trans; [apply dot_abs|]. pose proof (cross_mod b c). pose proof (vmod_nonneg (cross b c)).
  assert (vmod b * vmod c < h * h) by (apply Rmult_le_0_lt_compat; lra).
  apply Rmult_le_0_lt_compat; lra.
Qed.

Lemma plane_det : forall t p, det3 (vsub p (ta t)) (vsub (tb t) (ta t)) (vsub (tc t) (ta t)) =
  dot (cross (vsub (tb t) (ta t)) (vsub (tc t) (ta t))) (vsub p (ta t)).
Proof. intros t p. unfold det3, dot, cross, vsub. cbn. ring. Qed.

Lemma off_plane_false : forall t s, off_plane t s -> point_in_one_plane t (sa s) && point_in_one_plane t (sb s) = false.
Proof.
  intros t s (p & Hp & N). assert (E : point_in_one_plane t p = false).
  { unfold point_in_one_plane. apply Reqb_false. intros E. apply N. rewrite <- plane_det. unfold vsub. exact E. }
  destruct Hp as [<-|[<-|[]]]; rewrite E; [reflexivity|apply andb_false_r].
Qed.

Lemma small_none : forall t s, Rabs (spanned t s) < eps10 -> off_plane t s -> intersection_with_segment t s = [].
Proof.
  intros t s H O. unfold intersection_with_segment. rewrite spanned_det.
  replace (Rltb (Rabs (- spanned t s)) eps10) with true by (symmetry; apply Rltb_true; rewrite Rabs_Ropp; exact H).
  rewrite (off_plane_false t s O). reflexivity.
Qed.

Theorem small_lost : forall srt t u, sides_below (/ 2200) t -> sides_below (/ 2200) u ->
  (forall s, In s (sides u) -> off_plane t s) -> (forall s, In s (sides t) -> off_plane u s) ->
  intersection_with_triangle srt t u = [].
Proof.
  intros srt t u Ht Hu Ot Ou. rewrite raw_ok. destruct (Nat.eqb _ _); auto.
  assert (K : / 2200 * / 2200 * / 2200 < eps10) by (unfold eps10; lra).
  assert (E : raw t u = []).
  { unfold raw. replace (flat_map (intersection_with_segment t) (sides u)) with (@nil vect).
    - replace (flat_map (intersection_with_segment u) (sides t)) with (@nil vect); auto. symmetry.
      unfold sides. cbn [flat_map]. rewrite !small_none; auto; try (eapply Rlt_trans; [apply small_spanned; [exact Hu|apply Ht]|exact K]);
        try apply Ou; unfold sides; cbn; auto.
    - symmetry. unfold sides. cbn [flat_map]. rewrite !small_none; auto; try (eapply Rlt_trans; [apply small_spanned; [exact Ht|apply Hu]|exact K]);
        try apply Ot; unfold sides; cbn; auto. }
  rewrite E. reflexivity.
Qed.

(** Two crossing triangles of a tenth of a millimetre. *)
Definition tiny1 : triangle := Tri (V3 0 0 0) (V3 (/ 10000) 0 0) (V3 0 (/ 10000) 0) 0.
Definition tiny2 : triangle := Tri (V3 (/ 40000) (/ 40000) (- / 10000)) (V3 (/ 40000) (/ 40000) (/ 10000)) (V3 (/ 20000) (/ 30000) (/ 10000)) 1.

Lemma below_sq : forall a b h, 0 < h -> mod2 (vsub a b) < h * h -> dist_to a b < h.
Proof.
  intros a b h Hh H. unfold dist_to, vmod. rewrite <- (sqrt_square h) by lra. apply sqrt_lt_1; [apply mod2_nonneg|nra|exact H].
Qed.

Lemma tiny_below : sides_below (/ 2200) tiny1 /\ sides_below (/ 2200) tiny2.
Proof.
  split; intros s [<-|[<-|[<-|[]]]]; (apply below_sq; [lra|]); unfold mod2, dot, vsub; cbn; lra.
Qed.

Lemma tiny_off : (forall s, In s (sides tiny2) -> off_plane tiny1 s) /\ (forall s, In s (sides tiny1) -> off_plane tiny2 s).
Proof.
  split; intros s [<-|[<-|[<-|[]]]]; (eexists; split; [left; reflexivity|]); unfold dot, cross, vsub; cbn; lra.
Qed.

Lemma tiny_common : in_tri tiny1 (V3 (/ 40000) (/ 40000) 0) /\ in_tri tiny2 (V3 (/ 40000) (/ 40000) 0).
Proof.
  split.
  - exists (1 / 2), (1 / 4), (1 / 4). cbn. repeat split; lra.
  - exists (1 / 2), (1 / 2), 0. cbn. repeat split; lra.
Qed.

(** ** Points in triangles. *)
Lemma int_part_near : forall y z, IZR z <= y < IZR z + 1 -> Int_part y = z.
Proof.
  intros y z H. destruct (base_Int_part y) as (H1 & H2).
  assert (A : IZR (Int_part y) < IZR (z + 1)) by (rewrite plus_IZR; lra). apply lt_IZR in A.
  assert (B : IZR z < IZR (Int_part y + 1)) by (rewrite plus_IZR; lra). apply lt_IZR in B. lia.
Qed.

Lemma round10_near : forall x, Rabs (round10 x - x) <= eps10 / 2.
Proof.
  intros x. unfold round10, eps10. set (y := x * 10000000000). destruct (base_Int_part y) as (H1 & H2).
  assert (X : x = y / 10000000000) by (unfold y; field).
  set (f := Int_part y) in *. rewrite X. clearbody f. clear X. clearbody y.
  apply Rabs_le.
  destruct (Rltb (y - IZR f) (/ 2)) eqn:E1.
  - apply Rltb_true in E1. lra.
  - apply Rltb_false in E1. destruct (Rltb (/ 2) (y - IZR f)) eqn:E2.
    + apply Rltb_true in E2. rewrite plus_IZR. lra.
    + apply Rltb_false in E2. destruct (Z.even f); rewrite ?plus_IZR; lra.
Qed.

Lemma round10_zero : round10 0 = 0.
Proof. replace 0 with (IZR 0 / 10000000000) at 1 by field. rewrite round10_int. field. Qed.

Lemma round10_some : forall x, eps10 / 2 < x -> round10 x <> 0.
Proof. intros x H E. pose proof (round10_near x) as B. rewrite E in B. pose proof eps10_pos. rewrite Rabs_left1 in B; lra. Qed.

Lemma area_scale : forall a b c p q r i k, cross (vsub q p) (vsub r q) = vmul (cross (vsub b a) (vsub c b)) k -> 0 <= k ->
  area (Tri p q r i) = k * area (Tri a b c 0).
Proof.
  intros a b c p q r i k E K. unfold area. cbn [ta tb tc]. rewrite E. rewrite vmod_vmul by auto. ring.
Qed.

Lemma area_weights : forall t x u v w, weights t x u v w -> 
  area (Tri (ta t) (tb t) x 0) = Rabs w * area t /\ area (Tri (ta t) x (tc t) 0) = Rabs v * area t /\ area (Tri x (tb t) (tc t) 0) = Rabs u * area t.
Proof.
  intros [[ax ay az] [bx by_ bz] [cx cy cz] r] [x y z] u v w (S & X & Y & Z). cbn in *.
  assert (K : forall p q o k, cross (vsub q p) (vsub o q) = vmul (cross (vsub (V3 bx by_ bz) (V3 ax ay az)) (vsub (V3 cx cy cz) (V3 bx by_ bz))) k ->
    area (Tri p q o 0) = Rabs k * area (Tri (V3 ax ay az) (V3 bx by_ bz) (V3 cx cy cz) r)).
  { intros p q o k E. unfold area. cbn [ta tb tc]. rewrite E. rewrite vmod_scale. ring. }
  subst x y z. replace u with (1 - v - w) by lra.
  split; [|split]; apply K; unfold cross, vsub, vmul; cbn; f_equal; ring.
Qed.

Theorem point_inside : forall t x u v w, 3 / 20 <= area t -> weights t x u v w ->
  (u = 0 \/ eps10 / 2 < u * area t) -> (v = 0 \/ eps10 / 2 < v * area t) -> (w = 0 \/ eps10 / 2 < w * area t) ->
  point_in_triangle t x = (some_weight u + some_weight v + some_weight w)%nat.
Proof.
  intros t x u v w A W U V Q. destruct (area_weights t x u v w W) as (E1 & E2 & E3). destruct W as (S & _).
  assert (PP : forall k, k = 0 \/ eps10 / 2 < k * area t -> k = 0 \/ 0 < k /\ eps10 / 2 < k * area t).
  { intros k [->|K]; auto. right. split; auto. pose proof eps10_pos. destruct (Rlt_dec 0 k); auto. nra. }
  apply PP in U, V, Q. clear PP.
  assert (P : forall k, k = 0 \/ 0 < k /\ eps10 / 2 < k * area t ->
    Rabs k = k /\ Rabs (round10 (Rabs k * area t) - k * area t) <= eps10 / 2 /\ nonzero (round10 (Rabs k * area t)) = some_weight k).
  { intros k K. assert (R : Rabs k = k) by (apply Rabs_right; destruct K as [->|[K _]]; lra). rewrite R. split; auto. split; [apply round10_near|].
    unfold nonzero, some_weight. destruct K as [->|[K1 K2]].
    - rewrite Rmult_0_l, round10_zero. destruct (Req_EM_T 0 0); [|contradiction]. replace (Reqb 0 0) with true by (symmetry; apply Reqb_true; auto). reflexivity.
    - destruct (Req_EM_T k 0); [lra|]. replace (Reqb _ 0) with false; auto. symmetry. apply Reqb_false. apply round10_some. exact K2. }
  destruct (P u U) as (U1 & U2 & U3). destruct (P v V) as (V1 & V2 & V3). destruct (P w Q) as (Q1 & Q2 & Q3).
  unfold point_in_triangle. rewrite E1, E2, E3. rewrite U3, V3, Q3.
  set (r1 := round10 (Rabs w * area t)) in *. set (r2 := round10 (Rabs v * area t)) in *. set (r3 := round10 (Rabs u * area t)) in *.
  replace (isclose (area t) (r1 + r2 + r3)) with true; [lia|]. symmetry. unfold isclose. apply Rleb_true.
  assert (B : Rabs (area t - (r1 + r2 + r3)) <= 3 / 2 * eps10).
  { assert (X : area t = u * area t + v * area t + w * area t) by (rewrite <- !Rmult_plus_distr_r, S; ring). rewrite X at 1.
    revert U2 V2 Q2. unfold Rabs. repeat destruct (Rcase_abs _); lra. }
  eapply Rle_trans; [exact B|]. assert (Rabs (area t) <= Rmax (Rabs (area t)) (Rabs (r1 + r2 + r3))) by apply Rmax_l.
  assert (Rabs (area t) = area t) by (apply Rabs_right; lra). unfold eps9, eps10 in *. lra.
Qed.

Theorem point_outside : forall t x u v w, 3 / 20 <= area t -> weights t x u v w ->
  u <= - / 100000000 \/ v <= - / 100000000 \/ w <= - / 100000000 -> point_in_triangle t x = 0%nat.
Proof.
  intros t x u v w A W N. destruct (area_weights t x u v w W) as (E1 & E2 & E3). destruct W as (S & _).
  unfold point_in_triangle. rewrite E1, E2, E3.
  assert (P : forall k, Rabs (round10 (Rabs k * area t) - Rabs k * area t) <= eps10 / 2) by (intros k; apply round10_near).
  pose proof (P u) as U. pose proof (P v) as V. pose proof (P w) as Q.
  set (r1 := round10 (Rabs w * area t)) in *. set (r2 := round10 (Rabs v * area t)) in *. set (r3 := round10 (Rabs u * area t)) in *.
  replace (isclose (area t) (r1 + r2 + r3)) with false; [reflexivity|]. symmetry. unfold isclose. apply Rleb_false.
  set (m := Rabs u + Rabs v + Rabs w). assert (M : 1 + 2 / 100000000 <= m).
  { unfold m. revert N. unfold Rabs. repeat destruct (Rcase_abs _); lra. }
  assert (B : Rabs ((r1 + r2 + r3) - m * area t) <= 3 / 2 * eps10).
  { unfold m. revert U V Q. clearbody r1 r2 r3. generalize (Rabs u) (Rabs v) (Rabs w). intros. unfold Rabs in *. repeat destruct (Rcase_abs _); nra. }
  set (r := r1 + r2 + r3) in *. set (g := area t) in *. clearbody r g m.
  assert (RR : m * g - 3 / 2 * eps10 <= r <= m * g + 3 / 2 * eps10) by (revert B; unfold Rabs; destruct (Rcase_abs _); lra).
  assert (r > g) by (unfold eps10 in *; nra).
  rewrite (Rabs_right g), (Rabs_right r) by lra. rewrite Rmax_right by lra. rewrite Rabs_left by lra. unfold eps9, eps10 in *. nra.
Qed.

(** The centroid of a triangle of one millimetre. *)
Definition mm_triangle : triangle := Tri (V3 0 0 0) (V3 (/ 1000) 0 0) (V3 0 (/ 1000) 0) 0.

Lemma area_flat : forall a b c i k, 0 <= k -> cross (vsub b a) (vsub c b) = V3 0 0 k -> area (Tri a b c i) = k / 2.
Proof.
  intros a b c i k K E. unfold area. cbn [ta tb tc]. rewrite E. unfold vmod, mod2, dot. cbn.
  replace (0 * 0 + 0 * 0 + k * k) with (k * k) by ring. rewrite sqrt_square by auto. field.
Qed.

Lemma mm_area : area mm_triangle = / 2000000.
Proof. unfold mm_triangle. rewrite (area_flat _ _ _ _ (/ 1000000)); [lra|lra|]. unfold cross, vsub. cbn. f_equal; lra. Qed.

Lemma mm_round : round10 (/ 6000000) = 1667 / 10000000000.
Proof.
  unfold round10. rewrite (int_part_near (/ 6000000 * 10000000000) 1666) by lra. rdec. cbn. lra.
Qed.

Lemma mm_lost : weights mm_triangle (V3 (/ 3000) (/ 3000) 0) (1 / 3) (1 / 3) (1 / 3) /\ point_in_triangle mm_triangle (V3 (/ 3000) (/ 3000) 0) = 0%nat.
Proof.
  assert (W : weights mm_triangle (V3 (/ 3000) (/ 3000) 0) (1 / 3) (1 / 3) (1 / 3)).
  { unfold weights. cbn. repeat split; lra. }
  split; [exact W|]. destruct (area_weights _ _ _ _ _ W) as (E1 & E2 & E3). unfold point_in_triangle. rewrite E1, E2, E3, mm_area.
  rewrite (Rabs_right (1 / 3)) by lra. replace (1 / 3 * / 2000000) with (/ 6000000) by lra. rewrite mm_round.
  replace (isclose _ _) with false; [reflexivity|]. symmetry. unfold isclose. apply Rleb_false. rewrite Rmax_right; rabs; unfold eps9; lra.
Qed.

(** A point over the unit triangle. *)
Definition over : vect := V3 (1 / 3) (1 / 3) (/ 1000000).

Lemma over_out : forall u v w, ~ weights unit_triangle over u v w.
Proof. intros u v w (S & X & Y & Z). cbn in *. lra. Qed.

Lemma area_near : forall a b c i k, 0 <= k -> k * k <= mod2 (cross (vsub b a) (vsub c b)) <= (k + / 100000000000) * (k + / 100000000000) ->
  k / 2 <= area (Tri a b c i) <= k / 2 + / 200000000000.
Proof.
  intros a b c i k K [A B]. unfold area. cbn [ta tb tc]. unfold vmod.
  assert (K1 : 0 <= k * k) by nra. set (h := k + / 100000000000) in *. assert (K2 : 0 <= h) by (unfold h; lra). assert (K3 : 0 <= h * h) by nra.
  assert (X := sqrt_le_1 (k * k) _ K1 (mod2_nonneg _) A). assert (Y := sqrt_le_1 _ _ (mod2_nonneg _) K3 B).
  rewrite sqrt_square in X by auto. rewrite sqrt_square in Y by lra. unfold h in *. lra.
Qed.

Lemma over_inside : point_in_triangle unit_triangle over = 3%nat.
Proof.
  unfold point_in_triangle. cbn [ta tb tc unit_triangle].
  assert (A0 : area unit_triangle = 1 / 2).
  { unfold unit_triangle. rewrite (area_flat _ _ _ _ 1); [lra|lra|]. unfold cross, vsub. cbn. f_equal; lra. }
  assert (A1 : 1 / 6 <= area (Tri (V3 0 0 0) (V3 1 0 0) over 0) <= 1 / 6 + / 200000000000).
  { replace (1 / 6) with (1 / 3 / 2) by lra. apply area_near; [lra|]. unfold mod2, dot, cross, vsub, over. cbn. lra. }
  assert (A2 : 1 / 6 <= area (Tri (V3 0 0 0) over (V3 0 1 0) 0) <= 1 / 6 + / 200000000000).
  { replace (1 / 6) with (1 / 3 / 2) by lra. apply area_near; [lra|]. unfold mod2, dot, cross, vsub, over. cbn. lra. }
  assert (A3 : 1 / 6 <= area (Tri over (V3 1 0 0) (V3 0 1 0) 0) <= 1 / 6 + / 200000000000).
  { replace (1 / 6) with (1 / 3 / 2) by lra. apply area_near; [lra|]. unfold mod2, dot, cross, vsub, over. cbn. lra. }
  rewrite A0. set (a1 := area (Tri (V3 0 0 0) (V3 1 0 0) over 0)) in *. set (a2 := area (Tri (V3 0 0 0) over (V3 0 1 0) 0)) in *.
  set (a3 := area (Tri over (V3 1 0 0) (V3 0 1 0) 0)) in *. clearbody a1 a2 a3. clear A0.
  pose proof (round10_near a1) as R1. pose proof (round10_near a2) as R2. pose proof (round10_near a3) as R3.
  assert (N : forall a, 1 / 6 <= a -> nonzero (round10 a) = 1%nat).
  { intros a H. unfold nonzero. replace (Reqb _ 0) with false; auto. symmetry. apply Reqb_false. apply round10_some. unfold eps10. lra. }
  rewrite !N by lra. replace (isclose _ _) with true; [reflexivity|]. symmetry. unfold isclose. apply Rleb_true.
  apply Rle_trans with (eps9 * Rabs (1 / 2)); [|apply Rmult_le_compat_l; [unfold eps9; lra|apply Rmax_l]].
  rewrite (Rabs_right (1 / 2)) by lra. revert R1 R2 R3. unfold eps9, eps10, Rabs. repeat destruct (Rcase_abs _); lra.
Qed.

(** ** Equality of triangles. *)
Lemma teq_refl : forall t, teq t t = true.
Proof. intros t. unfold teq. rewrite !veq_refl. cbn. rewrite orb_true_r. reflexivity. Qed.

Lemma coords_wide_eq : forall a b, wide a b -> (veq a b = true <-> a = b).
Proof.
  intros a b (X & Y & Z). apply veq_apart. unfold vapart, GeomSpec.apart. pose proof eps10_pos.
  repeat split; [destruct X|destruct Y|destruct Z]; auto; right; lra.
Qed.

Lemma centroid_third : forall a b c d, wide c d -> veq (vmul (vadd (vadd a b) c) (1 / 3)) (vmul (vadd (vadd a b) d) (1 / 3)) = true -> c = d.
Proof.
  intros a b c d (X & Y & Z) E. unfold veq, is_near_v in E. apply Rltb_true in E. unfold dist_to in E.
  set (m := vsub _ _) in E. destruct (vmod_coord m) as (M1 & M2 & M3).
  assert (E1 : vx m = (vx c - vx d) / 3) by (unfold m, vsub, vmul, vadd; cbn; field).
  assert (E2 : vy m = (vy c - vy d) / 3) by (unfold m, vsub, vmul, vadd; cbn; field).
  assert (E3 : vz m = (vz c - vz d) / 3) by (unfold m, vsub, vmul, vadd; cbn; field).
  rewrite E1 in M1. rewrite E2 in M2. rewrite E3 in M3. unfold Rdiv in *. rewrite Rabs_mult, (Rabs_right (/ 3)) in M1, M2, M3 by lra.
  destruct c as [c1 c2 c3], d as [d1 d2 d3]. cbn in *. pose proof eps10_pos.
  destruct X as [->|X]; [|lra]. destruct Y as [->|Y]; [|lra]. destruct Z as [->|Z]; [|lra]. reflexivity.
Qed.

Theorem teq_corners : forall t u, (forall a b, In a (points t) -> In b (points u) -> wide a b) -> NoDup (points t) -> NoDup (points u) ->
  (teq t u = true <-> same_corners t u).
Proof.
  intros [a b c i] [p q r j] H N M. unfold points in *. cbn [ta tb tc] in *.
  assert (V : forall x y, In x [a; b; c] -> In y [p; q; r] -> (veq x y = true <-> x = y)) by (intros; apply coords_wide_eq; auto).
  assert (Cc : forall x, centroid (Tri a b c x) = vmul (vadd (vadd a b) c) (1 / 3)) by reflexivity.
  assert (CA : forall x y z, vadd (vadd x y) z = vadd (vadd x z) y) by (intros; unfold vadd; cbn; f_equal; ring).
  assert (CB : forall x y, vadd x y = vadd y x) by (intros; unfold vadd; cbn; f_equal; ring).
  assert (ab : a <> b) by (intros ->; inversion N as [|? ? K]; apply K; left; auto).
  unfold teq, same_corners, points. cbn [ta tb tc].
  split.
  - intros E. destruct (veq (centroid _) (centroid _)) eqn:EC; [|discriminate].
    destruct (veq a p || veq a q || veq a r) eqn:EA; [|discriminate].
    unfold centroid in EC. cbn [ta tb tc] in EC.
    rewrite !orb_true_iff, !V in EA by (cbn; auto). rewrite !orb_true_iff, !V in E by (cbn; auto).
    assert (W : forall y, In y [p; q; r] -> wide c y) by (intros; apply H; cbn; auto).
    destruct EA as [[->| ->]| ->], E as [[E|E]|E]; try (symmetry in E; contradiction); subst b.
    + apply centroid_third in EC; [|apply W; cbn; auto]. subst. tauto.
    + rewrite (CA p q r) in EC. apply centroid_third in EC; [|apply W; cbn; auto]. subst. intros x. cbn. tauto.
    + rewrite (CB p q) in EC. apply centroid_third in EC; [|apply W; cbn; auto]. subst. intros x. cbn. tauto.
    + replace (vadd (vadd p q) r) with (vadd (vadd q r) p) in EC by (unfold vadd; cbn; f_equal; ring).
      apply centroid_third in EC; [|apply W; cbn; auto]. subst. intros x. cbn. tauto.
    + replace (vadd (vadd p q) r) with (vadd (vadd r p) q) in EC by (unfold vadd; cbn; f_equal; ring).
      apply centroid_third in EC; [|apply W; cbn; auto]. subst. intros x. cbn. tauto.
    + replace (vadd (vadd p q) r) with (vadd (vadd r q) p) in EC by (unfold vadd; cbn; f_equal; ring).
      apply centroid_third in EC; [|apply W; cbn; auto]. subst. intros x. cbn. tauto.
  - intros S. assert (P : Permutation [a; b; c] [p; q; r]).
    { apply NoDup_Permutation; auto. }
    assert (Ec : centroid (Tri a b c i) = centroid (Tri p q r j)).
    { unfold centroid. cbn [ta tb tc]. f_equal.
      assert (F : forall l l', Permutation l l' -> fold_right vadd (V3 0 0 0) l = fold_right vadd (V3 0 0 0) l').
      { induction 1; cbn; auto; [congruence| |congruence]. unfold vadd. cbn. f_equal; ring. }
      specialize (F _ _ P). cbn in F. transitivity (vadd a (vadd b (vadd c (V3 0 0 0)))); [|rewrite F]; unfold vadd; cbn; f_equal; ring. }
    rewrite Ec, veq_refl.
    assert (A : In a [p; q; r]) by (apply S; cbn; auto). assert (B : In b [p; q; r]) by (apply S; cbn; auto).
    assert (A' : veq a p || veq a q || veq a r = true).
    { rewrite !orb_true_iff. rewrite !V by (cbn; auto). destruct A as [<-|[<-|[<-|[]]]]; auto. }
    rewrite A'. rewrite !orb_true_iff. rewrite !V by (cbn; auto). destruct B as [<-|[<-|[<-|[]]]]; auto.
Qed.

(** A degenerate triangle. *)
Definition folded : triangle := Tri (V3 0 0 0) (V3 0 0 0) (V3 3 3 0) 0.
Definition spread : triangle := Tri (V3 0 0 0) (V3 3 0 0) (V3 0 3 0) 1.

Lemma folded_equal : teq folded spread = true /\ teq spread folded = false.
Proof.
  assert (Ec : centroid folded = centroid spread) by (unfold centroid, vmul, vadd; cbn; f_equal; ring).
  assert (NE : forall a b, 1 <= mod2 (vsub a b) -> veq a b = false).
  { intros a b H. unfold veq, is_near_v. apply Rltb_false. unfold dist_to, vmod.
    apply Rle_trans with 1; [unfold eps10; lra|]. rewrite <- sqrt_1. apply sqrt_le_1; [lra|apply mod2_nonneg|exact H]. }
  split; unfold teq; rewrite Ec, veq_refl; cbn [ta tb tc folded spread]; rewrite veq_refl; cbn [orb].
  - reflexivity.
  - rewrite !NE by (unfold mod2, dot, vsub; cbn; lra). reflexivity.
Qed.

(** Two triangles of one plane, near to each other. *)
Definition beside : triangle := Tri (V3 0 0 0) (V3 1 0 0) (V3 0 1 0) 1.

Lemma beside_apart : forall x, ~ (in_tri ahead_triangle x /\ in_tri beside x).
Proof.
  intros x ((u & v & w & Hu & Hv & Hw & S & X & Y & _) & (u' & v' & w' & Hu' & Hv' & Hw' & S' & X' & Y' & _)).
  cbn in *. pose proof eps10_pos. nra.
Qed.

Lemma beside_reported : forall srt, keeps_all srt -> intersection_with_triangle srt ahead_triangle beside <> [].
Proof.
  intros srt K E. apply (iwt_nil srt ahead_triangle beside K) in E; [|cbn; discriminate].
  unfold raw, sides in E. cbn [flat_map] in E. change (Seg (ta beside) (tb beside)) with ahead_segment in E. rewrite ahead_reported in E. discriminate.
Qed.

(** A triangle of the plane z = 0 and an upright one through it. *)
Definition flat1 : triangle := Tri (V3 0 0 0) (V3 4 0 0) (V3 0 4 0) 0.
Definition up1 : triangle := Tri (V3 1 1 (-1)) (V3 1 1 1) (V3 9 2 2) 1.

Lemma cross_general : general flat1 up1.
Proof.
  split; intros s [<-|[<-|[<-|[]]]]; unfold spanned, dot, cross; cbn; rabs; unfold eps10; lra.
Qed.

Lemma cross_common : in_tri flat1 (V3 1 1 0) /\ in_tri up1 (V3 1 1 0).
Proof.
  split.
  - exists (1 / 2), (1 / 4), (1 / 4). cbn. repeat split; lra.
  - exists (1 / 2), (1 / 2), 0. cbn. repeat split; lra.
Qed.
