(** The distance of two nodes computed with doubles is positive. *)

From Coq Require Import ZArith NArith Reals Lra Lia Ascii String Bool List Floats.SpecFloat.
From Flocq Require Import Core.Core IEEE754.BinarySingleNaN.
From Verif Require Import Py Heap StoreSpec Double DoubleSpec DoubleProofs DoubleMore DoubleGeomSpec DoubleGeom.
Import ListNotations.
Open Scope list_scope.
Open Scope Z_scope.

(** Infinity or a number not less than [b]. *)
Definition big (b : R) (t : double) : Prop := t = B754_infinity false \/ is_finite t = true /\ (b <= B2R t)%R.

Lemma inf_of : forall (t : double) s, B2SF t = S754_infinity s -> t = B754_infinity s.
Proof. intros [ | | | ] s' E; cbn in E; congruence. Qed.

Lemma rn_ge : forall b x, generic_format radix2 fx b -> (b <= x)%R -> (b <= rn x)%R.
Proof. intros b x G H. rewrite <- (rn_id b G). apply rn_le. exact H. Qed.

Lemma square_big : forall (u v : double) k, is_finite u = true -> is_finite v = true -> -537 <= k ->
  (bpow radix2 k <= Rabs (B2R u - B2R v))%R -> big (bpow radix2 (2 * k)) (times (minus u v) (minus u v)).
Proof.
  intros u v k Fu Fv Hk H. pose proof (Bminus_correct 53 1024 prec53 prec_emax mode_NE u v Fu Fv) as C. fold (minus u v) in C.
  change (round radix2 fx (round_mode mode_NE) (B2R u - B2R v)) with (rn (B2R u - B2R v)) in C. destruct (Rlt_bool _ _).
  - destruct C as (C1 & C2 & _). set (a := minus u v) in *. clearbody a.
    assert (L : (bpow radix2 k <= Rabs (B2R a))%R).
    { rewrite C1. destruct (Rle_dec 0 (B2R u - B2R v)) as [P|P].
      - rewrite (Rabs_pos_eq _ P) in H. eapply Rle_trans; [|apply Rle_abs]. apply rn_ge; [apply fmt_bpow; lia|exact H].
      - rewrite Rabs_left in H by lra. rewrite <- Rabs_Ropp. eapply Rle_trans; [|apply Rle_abs]. rewrite <- rn_opp. apply rn_ge; [apply fmt_bpow; lia|exact H]. }
    assert (Q : (bpow radix2 (2 * k) <= B2R a * B2R a)%R).
    { replace (2 * k) with (k + k) by lia. rewrite bpow_plus. rewrite <- (Rabs_pos_eq (B2R a * B2R a)) by nra. rewrite Rabs_mult. assert (0 < bpow radix2 k)%R by apply bpow_gt_0. nra. }
    pose proof (Bmult_correct 53 1024 prec53 prec_emax mode_NE a a) as M. rewrite xorb_nilpotent in M. fold (times a a) in M. change (round radix2 fx (round_mode mode_NE) (B2R a * B2R a)) with (rn (B2R a * B2R a)) in M.
    destruct (Rlt_bool _ _).
    + destruct M as (M1 & M2 & _). right. rewrite M1, M2, C2. split; [reflexivity|]. apply rn_ge; [apply fmt_bpow; lia|exact Q].
    + left. apply inf_of. exact M.
  - left. destruct C as [C _]. cbn in C. rewrite (inf_of _ _ C). destruct (Bsign u); reflexivity.
Qed.

Lemma square_nn : forall u v : double, is_finite u = true -> is_finite v = true -> big 0 (times (minus u v) (minus u v)).
Proof.
  intros u v Fu Fv. pose proof (Bminus_correct 53 1024 prec53 prec_emax mode_NE u v Fu Fv) as C. fold (minus u v) in C. destruct (Rlt_bool _ _).
  - destruct C as (C1 & C2 & _). clear C1. set (a := minus u v) in *. clearbody a.
    pose proof (Bmult_correct 53 1024 prec53 prec_emax mode_NE a a) as M. rewrite xorb_nilpotent in M. fold (times a a) in M. change (round radix2 fx (round_mode mode_NE) (B2R a * B2R a)) with (rn (B2R a * B2R a)) in M.
    destruct (Rlt_bool _ _).
    + destruct M as (M1 & M2 & _). right. rewrite M1, M2, C2. split; [reflexivity|]. apply rn_ge; [apply generic_format_0|nra].
    + left. apply inf_of. exact M.
  - left. destruct C as [C _]. cbn in C. rewrite (inf_of _ _ C). destruct (Bsign u); reflexivity.
Qed.

Lemma plus_big : forall s t b c, generic_format radix2 fx (b + c)%R -> big b s -> big c t -> (0 <= b)%R -> (0 <= c)%R -> big (b + c) (plus s t).
Proof.
  intros s t b c G [Es|[Fs Ls]] [Et|[Ft Lt]] B C.
  - left. rewrite Es, Et. reflexivity.
  - left. rewrite Es. destruct t; cbn in Ft; try discriminate; reflexivity.
  - left. rewrite Et. destruct s; cbn in Fs; try discriminate; reflexivity.
  - pose proof (Bplus_correct 53 1024 prec53 prec_emax mode_NE s t Fs Ft) as P. fold (plus s t) in P.
    change (round radix2 fx (round_mode mode_NE) (B2R s + B2R t)) with (rn (B2R s + B2R t)) in P.
    case_eq (Rlt_bool (Rabs (rn (B2R s + B2R t))) (bpow radix2 1024)); intros E; rewrite E in P.
    + right. destruct P as (P1 & P2 & _). split; [exact P2|]. rewrite P1. apply rn_ge; [exact G|lra].
    + left. destruct P as [P Sg]. apply inf_of. rewrite P. cbn. f_equal. destruct s as [ | | |[|] m e H]; cbn in Fs; try discriminate; cbn [Bsign] in *; try reflexivity.
      * exfalso. cbn [B2R] in E. rewrite Rplus_0_l in E. rewrite rn_id in E by apply generic_format_B2R. rewrite Rlt_bool_true in E; [discriminate|]. apply abs_B2R_lt_emax.
      * exfalso. assert (Q : (B2R (B754_finite true m e H : double) < 0)%R) by (apply F2R_lt_0; reflexivity). lra.
Qed.

Lemma root_pos : forall s k, -1074 <= k -> big (bpow radix2 (2 * k)) s -> Bltb (B754_zero false) (proj1_sig (num (root s))) = true.
Proof.
  intros s k Hk [E|[Fi L]]; [rewrite E; reflexivity|].
  pose proof (Bsqrt_correct 53 1024 prec53 prec_emax mode_NE s) as (A & Fr & _). fold (root s) in A, Fr.
  assert (P : (0 < bpow radix2 (2 * k))%R) by apply bpow_gt_0.
  assert (Fr' : is_finite (root s) = true).
  { rewrite Fr. destruct s as [ | | |[|] m e H]; cbn in Fi; try discriminate; try reflexivity.
    exfalso. assert (Q : (B2R (B754_finite true m e H : double) < 0)%R) by (apply F2R_lt_0; reflexivity). lra. }
  rewrite num_finite by exact Fr'. rewrite Bltb_correct by (auto; reflexivity). apply Rlt_bool_true. cbn [B2R]. rewrite A.
  apply Rlt_le_trans with (bpow radix2 k); [apply bpow_gt_0|]. apply rn_ge; [apply fmt_bpow; lia|].
  rewrite <- (sqrt_square (bpow radix2 k)) by apply bpow_ge_0. apply sqrt_le_1_alt. rewrite <- bpow_plus. replace (k + k) with (2 * k) by lia. exact L.
Qed.

(** Coordinates with different ten-billionths are not too near. *)
Lemma units_far : forall x y : double, is_finite x = true -> is_finite y = true -> units x <> units y -> (bpow radix2 (-100) <= Rabs (B2R x - B2R y))%R.
Proof.
  assert (K : forall x y : double, is_finite x = true -> is_finite y = true -> B2R x <> B2R y -> (bpow radix2 (-40) <= Rabs (B2R x))%R -> (bpow radix2 (-100) <= Rabs (B2R x - B2R y))%R).
  { intros x y Fx Fy D L. destruct (Rlt_le_dec (Rabs (B2R y)) (bpow radix2 (-41))) as [S|B].
    - pose proof (Rabs_triang_inv (B2R x) (B2R y)) as T. assert (E : bpow radix2 (-40) = (2 * bpow radix2 (-41))%R) by (change (-40) with (1 + -41); rewrite bpow_plus; reflexivity).
      assert (bpow radix2 (-100) <= bpow radix2 (-41))%R by (apply bpow_le; lia). lra.
    - assert (M : forall t : double, (bpow radix2 (-41) <= Rabs (B2R t))%R -> exists n, B2R t = (IZR n * bpow radix2 (-100))%R).
      { intros t H. apply fmt_multiple; [apply generic_format_B2R|]. unfold cexp. assert (Q : -41 < mag radix2 (B2R t)) by (apply mag_gt_bpow; exact H).
        unfold SpecFloat.fexp, SpecFloat.emin. lia. }
      destruct (M x) as [n En]. { eapply Rle_trans; [|exact L]. apply bpow_le; lia. } destruct (M y B) as [m Em]. rewrite En, Em in *. rewrite <- Rmult_minus_distr_r, <- minus_IZR, Rabs_mult, (Rabs_pos_eq (bpow radix2 (-100))) by apply bpow_ge_0.
      assert (n <> m) by (intros ->; apply D; reflexivity). rewrite <- abs_IZR. assert (1 <= IZR (Z.abs (n - m)))%R by (apply IZR_le; lia). pose proof (bpow_gt_0 radix2 (-100)). nra. }
  intros x y Fx Fy D.
  assert (N : B2R x <> B2R y) by (intros E; apply D; unfold units; rewrite E; reflexivity).
  destruct (Rle_lt_dec (bpow radix2 (-40)) (Rabs (B2R x))) as [L|L]; [apply K; assumption|].
  destruct (Rle_lt_dec (bpow radix2 (-40)) (Rabs (B2R y))) as [L'|L']; [rewrite Rabs_minus_sym; apply K; auto|].
  exfalso. apply D. assert (Z : forall t : double, (Rabs (B2R t) < bpow radix2 (-40))%R -> units t = 0).
  { intros t H. unfold units. apply Znearest_imp. rewrite Rminus_0_r, Rabs_mult, (Rabs_pos_eq (ten 10)) by apply bpow_ge_0.
    assert (Q : (bpow radix2 (-40) * ten 10 < / 2)%R) by (unfold ten; cbn; lra). assert (P : (0 < ten 10)%R) by apply bpow_gt_0. nra. }
  rewrite (Z x L), (Z y L'). reflexivity.
Qed.

Theorem dist_pos : forall p q : @pt DoubleOps, finite_pt p -> finite_pt q -> @rnd DoubleOps p <> @rnd DoubleOps q ->
  @vltb DoubleOps (@val0 DoubleOps) (@vdist DoubleOps p q) = true.
Proof.
  intros p q Fp Fq D. assert (D' : ~ same_units p q) by (intros E; apply D; apply (rnd_units _ _ Fq); auto). clear D.
  destruct p as [[x y] z]. destruct q as [[x' y'] z']. destruct Fp as (F1 & F2 & F3). destruct Fq as (G1 & G2 & G3). cbn [same_units] in D'.
  cbn [vdist vltb val0 DoubleOps proj1_sig]. apply (root_pos _ (-100)); [lia|].
  pose proof (square_nn _ _ F1 G1) as N1. pose proof (square_nn _ _ F2 G2) as N2. pose proof (square_nn _ _ F3 G3) as N3.
  assert (G0 : generic_format radix2 fx 0) by apply generic_format_0. assert (Gb : generic_format radix2 fx (bpow radix2 (2 * -100))) by (apply fmt_bpow; lia).
  assert (Bp : (0 <= bpow radix2 (2 * -100))%R) by apply bpow_ge_0.
  destruct (Z.eq_dec (units (proj1_sig x)) (units (proj1_sig x'))) as [E1|E1];
    [destruct (Z.eq_dec (units (proj1_sig y)) (units (proj1_sig y'))) as [E2|E2]; [destruct (Z.eq_dec (units (proj1_sig z)) (units (proj1_sig z'))) as [E3|E3]; [tauto|]|]|].
  - pose proof (square_big _ _ (-100) F3 G3 ltac:(lia) (units_far _ _ F3 G3 E3)) as B. rewrite <- (Rplus_0_l (bpow radix2 (2 * -100))). apply plus_big; auto; try lra.
    + rewrite Rplus_0_l. exact Gb.
    + rewrite <- (Rplus_0_l 0) at 1. apply plus_big; auto; try lra. rewrite Rplus_0_l. exact G0.
  - pose proof (square_big _ _ (-100) F2 G2 ltac:(lia) (units_far _ _ F2 G2 E2)) as B. rewrite <- (Rplus_0_r (bpow radix2 (2 * -100))). apply plus_big; auto; try lra.
    + rewrite Rplus_0_r. exact Gb.
    + rewrite <- (Rplus_0_l (bpow radix2 (2 * -100))). apply plus_big; auto; try lra. rewrite Rplus_0_l. exact Gb.
  - pose proof (square_big _ _ (-100) F1 G1 ltac:(lia) (units_far _ _ F1 G1 E1)) as B. rewrite <- (Rplus_0_r (bpow radix2 (2 * -100))). apply plus_big; auto; try lra.
    + rewrite Rplus_0_r. exact Gb.
    + rewrite <- (Rplus_0_r (bpow radix2 (2 * -100))). apply plus_big; auto; try lra. rewrite Rplus_0_r. exact Gb.
Qed.

(* ---------------------------------------------------------------- *)
(** * The value of the distance *)

Lemma minus_ok : forall (u v : double) e, is_finite u = true -> is_finite v = true -> -1074 <= e <= 1023 -> (Rabs (B2R u - B2R v) <= bpow radix2 e)%R ->
  is_finite (minus u v) = true /\ B2R (minus u v) = rn (B2R u - B2R v) /\ (Rabs (B2R (minus u v)) <= bpow radix2 e)%R.
Proof.
  intros u v e Fu Fv He H. assert (K := rn_abs _ e (proj1 He) H).
  pose proof (Bminus_correct 53 1024 prec53 prec_emax mode_NE u v Fu Fv) as C. change (round radix2 fx (round_mode mode_NE) (B2R u - B2R v)) with (rn (B2R u - B2R v)) in C.
  rewrite Rlt_bool_true in C; [|eapply Rle_lt_trans; [exact K|apply bpow_lt; lia]]. destruct C as (A & B & _). unfold minus. rewrite A. auto.
Qed.

Lemma times_ok : forall (u v : double) e, is_finite u = true -> is_finite v = true -> -1074 <= e <= 1023 -> (Rabs (B2R u * B2R v) <= bpow radix2 e)%R ->
  is_finite (times u v) = true /\ B2R (times u v) = rn (B2R u * B2R v) /\ (Rabs (B2R (times u v)) <= bpow radix2 e)%R.
Proof.
  intros u v e Fu Fv He H. assert (K := rn_abs _ e (proj1 He) H).
  pose proof (Bmult_correct 53 1024 prec53 prec_emax mode_NE u v) as C. change (round radix2 fx (round_mode mode_NE) (B2R u * B2R v)) with (rn (B2R u * B2R v)) in C.
  rewrite Rlt_bool_true in C; [|eapply Rle_lt_trans; [exact K|apply bpow_lt; lia]]. destruct C as (A & B & _). unfold times. rewrite A, B, Fu, Fv. auto.
Qed.

Lemma square_ok : forall u v : double, is_finite u = true -> is_finite v = true -> (Rabs (B2R u) <= bpow radix2 500)%R -> (Rabs (B2R v) <= bpow radix2 500)%R ->
  let w := times (minus u v) (minus u v) in
  is_finite w = true /\ B2R w = rn (rn (B2R u - B2R v) * rn (B2R u - B2R v)) /\ (Rabs (B2R w) <= bpow radix2 1002)%R /\ (0 <= B2R w)%R.
Proof.
  intros u v Fu Fv Hu Hv w. unfold w. clear w.
  assert (E : bpow radix2 501 = (2 * bpow radix2 500)%R) by (change 501 with (1 + 500); rewrite bpow_plus; reflexivity).
  assert (S : (Rabs (B2R u - B2R v) <= bpow radix2 501)%R) by (unfold Rminus; eapply Rle_trans; [apply Rabs_triang|]; rewrite Rabs_Ropp; lra).
  destruct (minus_ok u v 501 Fu Fv ltac:(lia) S) as (A & B & C).
  assert (Q : (Rabs (B2R (minus u v) * B2R (minus u v)) <= bpow radix2 1002)%R).
  { rewrite Rabs_mult. change 1002 with (501 + 501). rewrite bpow_plus. apply Rmult_le_compat; auto using Rabs_pos. }
  destruct (times_ok _ _ 1002 A A ltac:(lia) Q) as (A' & B' & C'). split; [exact A'|]. rewrite B' at 1. rewrite B. split; [reflexivity|]. split; [exact C'|].
  rewrite B'. apply rn_ge; [apply generic_format_0|nra].
Qed.

Theorem dist_value : forall p q : @pt DoubleOps, finite_pt p -> finite_pt q -> at_most (bpow radix2 500) p -> at_most (bpow radix2 500) q ->
  let sq a b := rounded (rounded (a - b) * rounded (a - b)) in
  is_finite (proj1_sig (@vdist DoubleOps p q)) = true /\
  B2R (proj1_sig (@vdist DoubleOps p q)) = rounded (sqrt (rounded (rounded (sq (rx p) (rx q) + sq (ry p) (ry q)) + sq (rz p) (rz q)))).
Proof.
  intros [[x y] z] [[x' y'] z'] (F1 & F2 & F3) (G1 & G2 & G3) (A1 & A2 & A3) (B1 & B2 & B3) sq. cbn [rx ry rz] in *.
  destruct (square_ok _ _ F1 G1 A1 B1) as (X1 & X2 & X3 & X4). destruct (square_ok _ _ F2 G2 A2 B2) as (Y1 & Y2 & Y3 & Y4). destruct (square_ok _ _ F3 G3 A3 B3) as (Z1 & Z2 & Z3 & Z4).
  cbn [vdist DoubleOps proj1_sig]. set (dx := times (minus (proj1_sig x) _) _) in *. set (dy := times (minus (proj1_sig y) _) _) in *. set (dz := times (minus (proj1_sig z) _) _) in *.
  assert (E1 : bpow radix2 1003 = (2 * bpow radix2 1002)%R) by (change 1003 with (1 + 1002); rewrite bpow_plus; reflexivity).
  assert (E2 : bpow radix2 1004 = (4 * bpow radix2 1002)%R) by (change 1004 with (2 + 1002); rewrite bpow_plus; reflexivity).
  assert (P : (0 < bpow radix2 1002)%R) by apply bpow_gt_0.
  assert (S1 : (Rabs (B2R dx + B2R dy) <= bpow radix2 1003)%R) by (eapply Rle_trans; [apply Rabs_triang|]; lra).
  destruct (plus_ok dx dy 1003 X1 Y1 ltac:(lia) S1) as (P1 & P2 & P3).
  assert (S2 : (Rabs (B2R (plus dx dy) + B2R dz) <= bpow radix2 1004)%R) by (eapply Rle_trans; [apply Rabs_triang|]; lra).
  destruct (plus_ok (plus dx dy) dz 1004 P1 Z1 ltac:(lia) S2) as (Q1 & Q2 & Q3).
  pose proof (Bsqrt_correct 53 1024 prec53 prec_emax mode_NE (plus (plus dx dy) dz)) as (R1 & R2 & _). fold (root (plus (plus dx dy) dz)) in R1, R2.
  assert (N1 : (0 <= B2R (plus dx dy))%R) by (rewrite P2; apply rn_ge; [apply generic_format_0|lra]).
  assert (N2 : (0 <= B2R (plus (plus dx dy) dz))%R) by (rewrite Q2; apply rn_ge; [apply generic_format_0|lra]).
  assert (Fr : is_finite (root (plus (plus dx dy) dz)) = true).
  { rewrite R2. destruct (plus (plus dx dy) dz) as [ | | |[|] m e H]; cbn in Q1; try discriminate; try reflexivity.
    exfalso. assert (K : (B2R (B754_finite true m e H : double) < 0)%R) by (apply F2R_lt_0; reflexivity). lra. }
  rewrite num_finite by exact Fr. split; [exact Fr|]. rewrite R1, Q2, P2, X2, Y2, Z2. reflexivity.
Qed.
