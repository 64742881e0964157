(** Proofs about the middle, the distance and the center computed with doubles. *)

From Coq Require Import ZArith NArith Reals Lra Lia Ascii String Bool List Floats.SpecFloat.
From Flocq Require Import Core.Core Relative Mult_error IEEE754.BinarySingleNaN.
From Verif Require Import Py Heap StoreSpec Double DoubleSpec DoubleProofs DoubleMore DoubleGeomSpec.
Import ListNotations.
Open Scope list_scope.
Open Scope Z_scope.

Lemma num_finite : forall x : double, is_finite x = true -> proj1_sig (num x) = x.
Proof. intros x Fi. unfold num. destruct (bool_dec (is_nan x) false) as [H|H]; [reflexivity|]. destruct x; cbn in *; try discriminate; congruence. Qed.

Lemma rn_le : forall x y, (x <= y)%R -> (rn x <= rn y)%R.
Proof. intros x y H. apply round_le; [apply fx_valid|apply valid_rnd_N|exact H]. Qed.

Lemma rn_id : forall x, generic_format radix2 fx x -> rn x = x.
Proof. intros x H. apply round_generic; [apply valid_rnd_N|exact H]. Qed.

Lemma rn_opp : forall x, rn (- x) = (- rn x)%R.
Proof. intros x. exact (round_NE_opp radix2 fx x). Qed.

Lemma fmt_bpow : forall e, -1074 <= e -> generic_format radix2 fx (bpow radix2 e).
Proof. intros e H. apply generic_format_bpow. unfold SpecFloat.fexp, SpecFloat.emin. lia. Qed.

Lemma rn_abs : forall x e, -1074 <= e -> (Rabs x <= bpow radix2 e)%R -> (Rabs (rn x) <= bpow radix2 e)%R.
Proof.
  intros x e He H. apply Rabs_le. apply Rabs_le_inv in H.
  rewrite <- (rn_id _ (fmt_bpow e He)). rewrite <- rn_opp. split; apply rn_le; apply H.
Qed.

Lemma fmt_twice : forall x, generic_format radix2 fx x -> generic_format radix2 fx (2 * x)%R.
Proof.
  intros x H. replace (2 * x)%R with (x * bpow radix2 1)%R by (cbn; ring).
  exact (mult_bpow_pos_exact_FLT radix2 (-1074) 53 x 1 H ltac:(lia)).
Qed.

(** The error of one operation. *)
Lemma rn_error : forall x, (Rabs (rn x - x) <= bpow radix2 (-53) * Rabs x + bpow radix2 (-1075))%R.
Proof.
  intros x. destruct (error_N_FLT radix2 (-1074) 53 eq_refl (fun z => negb (Z.even z)) x) as (eps & eta & A & B & _ & E).
  change (rn x = x * (1 + eps) + eta)%R in E. rewrite E. replace (x * (1 + eps) + eta - x)%R with (eps * x + eta)%R by ring.
  eapply Rle_trans; [apply Rabs_triang|]. rewrite Rabs_mult. apply Rplus_le_compat.
  - apply Rmult_le_compat_r; [apply Rabs_pos|]. eapply Rle_trans; [exact A|]. right. change (/ 2)%R with (bpow radix2 (-1)). rewrite <- bpow_plus. reflexivity.
  - eapply Rle_trans; [exact B|]. right. change (/ 2)%R with (bpow radix2 (-1)). rewrite <- bpow_plus. reflexivity.
Qed.

(* ---------------------------------------------------------------- *)
(** * Sum *)

Lemma plus_ok : forall (u v : double) e, is_finite u = true -> is_finite v = true -> -1074 <= e <= 1023 -> (Rabs (B2R u + B2R v) <= bpow radix2 e)%R ->
  is_finite (plus u v) = true /\ B2R (plus u v) = rn (B2R u + B2R v) /\ (Rabs (B2R (plus u v)) <= bpow radix2 e)%R.
Proof.
  intros u v e Fu Fv He H. assert (K := rn_abs _ e (proj1 He) H).
  pose proof (Bplus_correct 53 1024 prec53 prec_emax mode_NE u v Fu Fv) as C. change (round radix2 fx (round_mode mode_NE) (B2R u + B2R v)) with (rn (B2R u + B2R v)) in C.
  rewrite Rlt_bool_true in C; [|eapply Rle_lt_trans; [exact K|apply bpow_lt; lia]]. destruct C as (A & B & _).
  unfold plus. rewrite A. auto.
Qed.

Lemma plus_comm : forall u v : double, is_finite u = true -> is_finite v = true -> plus u v = plus v u.
Proof.
  intros u v Fu Fv. pose proof (Bplus_correct 53 1024 prec53 prec_emax mode_NE u v Fu Fv) as C. pose proof (Bplus_correct 53 1024 prec53 prec_emax mode_NE v u Fv Fu) as D.
  rewrite (Rplus_comm (B2R v)), (andb_comm (Bsign v)) in D. unfold plus. destruct (Rlt_bool _ _).
  - destruct C as (C1 & C2 & C3). destruct D as (D1 & D2 & D3). apply B2R_Bsign_inj; congruence.
  - apply B2SF_inj. destruct C as [C1 C2]. destruct D as [D1 D2]. congruence.
Qed.

(* ---------------------------------------------------------------- *)
(** * Middle *)

(** 1.0 / 2 *)
Definition one_half : double := divided (nearest false 1 1) (nearest false 2 1).

Lemma one_half_R : B2R one_half = (/ 2)%R /\ is_finite one_half = true.
Proof.
  assert (E : B2SF one_half = S754_finite false 4503599627370496 (-53)) by (vm_compute; reflexivity).
  split; [|rewrite <- is_finite_SF_B2SF, E; reflexivity]. rewrite <- SF2R_B2SF, E. unfold SF2R, F2R. cbn. lra.
Qed.

Definition half (u v : double) : double := times (plus u v) one_half.

Lemma half_ok : forall u v : double, is_finite u = true -> is_finite v = true -> (Rabs (B2R u) <= bpow radix2 1022)%R -> (Rabs (B2R v) <= bpow radix2 1022)%R ->
  is_finite (half u v) = true /\ B2R (half u v) = rn (rn (B2R u + B2R v) / 2) /\ (Rmin (B2R u) (B2R v) <= B2R (half u v) <= Rmax (B2R u) (B2R v))%R.
Proof.
  intros u v Fu Fv Hu Hv. destruct one_half_R as [HR HF].
  assert (E2 : bpow radix2 1023 = (2 * bpow radix2 1022)%R) by (change 1023 with (1 + 1022); rewrite bpow_plus; reflexivity).
  assert (S : (Rabs (B2R u + B2R v) <= bpow radix2 1023)%R) by (eapply Rle_trans; [apply Rabs_triang|]; lra).
  destruct (plus_ok u v 1023 Fu Fv ltac:(lia) S) as (A & B & C).
  assert (Gu : generic_format radix2 fx (B2R u)) by apply generic_format_B2R. assert (Gv : generic_format radix2 fx (B2R v)) by apply generic_format_B2R.
  assert (L : (2 * Rmin (B2R u) (B2R v) <= rn (B2R u + B2R v) <= 2 * Rmax (B2R u) (B2R v))%R).
  { assert (M : generic_format radix2 fx (Rmin (B2R u) (B2R v))) by (unfold Rmin; destruct (Rle_dec _ _); assumption).
    assert (M' : generic_format radix2 fx (Rmax (B2R u) (B2R v))) by (unfold Rmax; destruct (Rle_dec _ _); assumption).
    rewrite <- (rn_id _ (fmt_twice _ M)), <- (rn_id _ (fmt_twice _ M')).
    split; apply rn_le; unfold Rmin, Rmax; destruct (Rle_dec _ _); lra. }
  assert (L' : (Rmin (B2R u) (B2R v) <= rn (rn (B2R u + B2R v) / 2) <= Rmax (B2R u) (B2R v))%R).
  { assert (M : generic_format radix2 fx (Rmin (B2R u) (B2R v))) by (unfold Rmin; destruct (Rle_dec _ _); assumption).
    assert (M' : generic_format radix2 fx (Rmax (B2R u) (B2R v))) by (unfold Rmax; destruct (Rle_dec _ _); assumption).
    rewrite <- (rn_id _ M) at 1. rewrite <- (rn_id _ M'). split; apply rn_le; lra. }
  pose proof (Bmult_correct 53 1024 prec53 prec_emax mode_NE (plus u v) one_half) as K. rewrite HR, B in K.
  change (round radix2 fx (round_mode mode_NE) (rn (B2R u + B2R v) * / 2)) with (rn (rn (B2R u + B2R v) / 2)) in K.
  rewrite Rlt_bool_true in K.
  - destruct K as (K1 & K2 & _). unfold half, times. rewrite K1, K2, A, HF. auto.
  - eapply Rle_lt_trans; [|apply (bpow_lt radix2 1022 1024); lia]. apply Rabs_le. apply Rabs_le_inv in Hu. apply Rabs_le_inv in Hv.
    unfold Rmin, Rmax in L'. destruct (Rle_dec _ _); lra.
Qed.

(** A middle which is not near the ends. *)
Lemma half_apart : forall (u v : double), is_finite u = true -> is_finite v = true -> (Rabs (B2R u) <= 1024)%R -> (Rabs (B2R v) <= 1024)%R ->
  (ten (-10) * (2 + / 100) < Rabs (B2R u - B2R v))%R -> (ten (-10) < Rabs (B2R (half u v) - B2R u))%R.
Proof.
  intros u v Fu Fv Hu Hv D.
  assert (B10 : (1024 = bpow radix2 10)%R) by (cbn; lra). assert (P : (1024 <= bpow radix2 1022)%R) by (rewrite B10; apply bpow_le; lia).
  destruct (half_ok u v Fu Fv ltac:(lra) ltac:(lra)) as (_ & E & _). rewrite E.
  assert (S : (Rabs (B2R u + B2R v) <= 2048)%R) by (eapply Rle_trans; [apply Rabs_triang|]; lra).
  assert (S' : (Rabs (rn (B2R u + B2R v)) <= 2048)%R).
  { replace 2048%R with (bpow radix2 11) in * by (cbn; lra). apply rn_abs; [lia|exact S]. }
  pose proof (rn_error (B2R u + B2R v)) as E1. pose proof (rn_error (rn (B2R u + B2R v) / 2)) as E2.
  assert (T : (Rabs (rn (B2R u + B2R v) / 2) <= 1024)%R) by (unfold Rdiv; rewrite Rabs_mult, (Rabs_pos_eq (/ 2)); lra).
  assert (U : (bpow radix2 (-53) * 2048 <= bpow radix2 (-42))%R) by (replace 2048%R with (bpow radix2 11) by (cbn; lra); rewrite <- bpow_plus; right; reflexivity).
  assert (W : (bpow radix2 (-1075) <= bpow radix2 (-53))%R) by (apply bpow_le; lia).
  assert (Q : (0 < bpow radix2 (-53))%R) by apply bpow_gt_0.
  assert (X1 : (bpow radix2 (-53) * Rabs (B2R u + B2R v) <= bpow radix2 (-53) * 2048)%R) by (apply Rmult_le_compat_l; lra).
  assert (X2 : (bpow radix2 (-53) * Rabs (rn (B2R u + B2R v) / 2) <= bpow radix2 (-53) * 1024)%R) by (apply Rmult_le_compat_l; lra).
  assert (Y : (4 * bpow radix2 (-42) <= ten (-10) * / 100)%R).
  { unfold ten. cbn. lra. }
  assert (Tp : (0 < ten (-10))%R) by apply bpow_gt_0.
  set (r1 := rn (B2R u + B2R v)) in *. set (r2 := rn (r1 / 2)) in *. set (a := B2R u) in *. set (b := B2R v) in *. clearbody r1 r2 a b.
  unfold Rabs in *. destruct (Rcase_abs (r2 - a)); destruct (Rcase_abs (a - b)); destruct (Rcase_abs (r1 - (a + b))); destruct (Rcase_abs (r2 - r1 / 2)); lra.
Qed.

Lemma half_comm : forall u v : double, is_finite u = true -> is_finite v = true -> half u v = half v u.
Proof. intros u v Fu Fv. unfold half. rewrite (plus_comm u v Fu Fv). reflexivity. Qed.

Lemma mid_at : forall x y z x' y' z', @vmid DoubleOps (x, y, z) (x', y', z') =
  (num (half (proj1_sig x) (proj1_sig x')), num (half (proj1_sig y) (proj1_sig y')), num (half (proj1_sig z) (proj1_sig z'))).
Proof. reflexivity. Qed.

Theorem middle_main : forall p q : @pt DoubleOps, finite_pt p -> finite_pt q -> at_most (bpow radix2 1022) p -> at_most (bpow radix2 1022) q ->
  finite_pt (@vmid DoubleOps p q) /\ in_box p q (@vmid DoubleOps p q) /\ @vmid DoubleOps q p = @vmid DoubleOps p q /\
  rx (@vmid DoubleOps p q) = rounded (rounded (rx p + rx q) / 2) /\ ry (@vmid DoubleOps p q) = rounded (rounded (ry p + ry q) / 2) /\
  rz (@vmid DoubleOps p q) = rounded (rounded (rz p + rz q) / 2).
Proof.
  intros [[x y] z] [[x' y'] z'] (F1 & F2 & F3) (G1 & G2 & G3) (A1 & A2 & A3) (B1 & B2 & B3). rewrite !mid_at. cbn [rx ry rz finite_pt in_box] in *.
  destruct (half_ok _ _ F1 G1 A1 B1) as (H1 & I1 & J1). destruct (half_ok _ _ F2 G2 A2 B2) as (H2 & I2 & J2). destruct (half_ok _ _ F3 G3 A3 B3) as (H3 & I3 & J3).
  unfold in_box. cbn [rx ry rz]. rewrite !num_finite by assumption.
  split; [auto|]. split; [auto|]. split; [rewrite (half_comm _ _ G1 F1), (half_comm _ _ G2 F2), (half_comm _ _ G3 F3); reflexivity|].
  split; [exact I1|]. split; [exact I2|exact I3].
Qed.

Theorem apart_main : forall p q : @pt DoubleOps, finite_pt p -> finite_pt q -> at_most 1024 p -> at_most 1024 q -> apart (ten (-10) * (2 + / 100)) p q ->
  @rnd DoubleOps (@vmid DoubleOps p q) <> @rnd DoubleOps p /\ @rnd DoubleOps (@vmid DoubleOps p q) <> @rnd DoubleOps q.
Proof.
  assert (K : forall p q : @pt DoubleOps, finite_pt p -> finite_pt q -> at_most 1024 p -> at_most 1024 q -> apart (ten (-10) * (2 + / 100)) p q ->
    @rnd DoubleOps (@vmid DoubleOps p q) <> @rnd DoubleOps p).
  { intros p q Fp Fq Ap Aq D E. apply (rnd_units _ _ Fp) in E. destruct E as [Fm Sm]. pose proof (same_within _ _ Fm Fp Sm) as W. clear Sm.
    destruct p as [[x y] z]. destruct q as [[x' y'] z']. destruct Fp as (F1 & F2 & F3). destruct Fq as (G1 & G2 & G3). destruct Ap as (A1 & A2 & A3). destruct Aq as (B1 & B2 & B3).
    rewrite mid_at in W. cbn [rx ry rz within] in *. destruct W as (W1 & W2 & W3). clear Fm.
    assert (B10 : (1024 = bpow radix2 10)%R) by (cbn; lra). assert (P : (1024 <= bpow radix2 1022)%R) by (rewrite B10; apply bpow_le; lia).
    assert (Q : forall r : R, (r <= 1024)%R -> (r <= bpow radix2 1022)%R) by (intros; lra).
    rewrite num_finite in W1 by (apply half_ok; auto). rewrite num_finite in W2 by (apply half_ok; auto). rewrite num_finite in W3 by (apply half_ok; auto).
    destruct D as [D|[D|D]]; cbn [rx ry rz] in D.
    - pose proof (half_apart _ _ F1 G1 A1 B1 D). lra.
    - pose proof (half_apart _ _ F2 G2 A2 B2 D). lra.
    - pose proof (half_apart _ _ F3 G3 A3 B3 D). lra. }
  intros p q Fp Fq Ap Aq D. split; [auto|].
  assert (C : @vmid DoubleOps p q = @vmid DoubleOps q p).
  { destruct p as [[x y] z]. destruct q as [[x' y'] z']. destruct Fp as (F1 & F2 & F3). destruct Fq as (G1 & G2 & G3). rewrite !mid_at.
    rewrite (half_comm _ _ G1 F1), (half_comm _ _ G2 F2), (half_comm _ _ G3 F3). reflexivity. }
  rewrite C. apply K; auto. unfold apart in *. rewrite (Rabs_minus_sym (rx q)), (Rabs_minus_sym (ry q)), (Rabs_minus_sym (rz q)). exact D.
Qed.

(* ---------------------------------------------------------------- *)
(** * Distance *)

Lemma square_sym : forall u v : double, is_finite u = true -> is_finite v = true -> times (minus u v) (minus u v) = times (minus v u) (minus v u).
Proof.
  intros u v Fu Fv. pose proof (Bminus_correct 53 1024 prec53 prec_emax mode_NE u v Fu Fv) as C. pose proof (Bminus_correct 53 1024 prec53 prec_emax mode_NE v u Fv Fu) as D.
  assert (O : round radix2 fx (round_mode mode_NE) (B2R v - B2R u) = (- round radix2 fx (round_mode mode_NE) (B2R u - B2R v))%R).
  { rewrite <- (round_NE_opp radix2 fx). f_equal. ring. }
  rewrite O, Rabs_Ropp in D. fold (minus u v) in C. fold (minus v u) in D. destruct (Rlt_bool _ _).
  - destruct C as (C1 & C2 & _). destruct D as (D1 & D2 & _). rewrite <- C1 in D1. set (a := minus u v) in *. set (b := minus v u) in *. clearbody a b.
    pose proof (Bmult_correct 53 1024 prec53 prec_emax mode_NE a a) as M. pose proof (Bmult_correct 53 1024 prec53 prec_emax mode_NE b b) as N.
    rewrite D1 in N. replace (- B2R a * - B2R a)%R with (B2R a * B2R a)%R in N by ring. rewrite xorb_nilpotent in M, N. unfold times. destruct (Rlt_bool _ _).
    + destruct M as (M1 & M2 & M3). destruct N as (N1 & N2 & N3). rewrite C2 in M2. rewrite D2 in N2. cbn in M2, N2.
      assert (Z : forall t : double, is_finite t = true -> is_nan t = false) by (intros [ | | | ]; cbn; congruence).
      apply B2R_Bsign_inj; auto; [congruence|]. rewrite M3, N3; auto.
    + apply B2SF_inj. congruence.
  - destruct C as [C _]. destruct D as [D _]. unfold binary_overflow in *. cbn in C, D.
    assert (I : forall (t : double) s, B2SF t = S754_infinity s -> t = B754_infinity s) by (intros [ | | | ] s' E; cbn in E; congruence).
    rewrite (I _ _ C), (I _ _ D). destruct (Bsign u), (Bsign v); reflexivity.
Qed.

Theorem dist_sym : forall p q : @pt DoubleOps, finite_pt p -> finite_pt q -> @vdist DoubleOps p q = @vdist DoubleOps q p.
Proof.
  intros [[x y] z] [[x' y'] z'] (F1 & F2 & F3) (G1 & G2 & G3). cbn [vdist DoubleOps].
  rewrite (square_sym _ _ F1 G1), (square_sym _ _ F2 G2), (square_sym _ _ F3 G3). reflexivity.
Qed.

Lemma minus_self : forall u : double, is_finite u = true -> minus u u = B754_zero false.
Proof.
  intros u Fu. pose proof (Bminus_correct 53 1024 prec53 prec_emax mode_NE u u Fu Fu) as C. rewrite Rminus_diag_eq in C by reflexivity. rewrite round_0, Rabs_R0 in C by apply valid_rnd_N.
  rewrite Rlt_bool_true in C by apply bpow_gt_0. destruct C as (C1 & C2 & C3). rewrite Rcompare_Eq in C3 by reflexivity.
  apply B2R_Bsign_inj; auto. unfold minus. rewrite C3. destruct (Bsign u); reflexivity.
Qed.

Theorem dist_self : forall p : @pt DoubleOps, finite_pt p -> @vdist DoubleOps p p = @val0 DoubleOps.
Proof.
  intros [[x y] z] (F1 & F2 & F3). cbn [vdist DoubleOps val0]. rewrite (minus_self _ F1), (minus_self _ F2), (minus_self _ F3). reflexivity.
Qed.

Lemma root_nonneg : forall s : double, Bltb (proj1_sig (num (root s))) (B754_zero false) = false.
Proof.
  intros s. unfold num. destruct (bool_dec (is_nan (root s)) false) as [H|H]; [|reflexivity]. cbn [proj1_sig]. revert H. unfold root. destruct s as [s|[|]| |[|] m e B]; intros H; try reflexivity; try discriminate H.
  - pose proof (Bsqrt_correct 53 1024 prec53 prec_emax mode_NE (B754_finite false m e B)) as (A & Fi & _). cbn in Fi.
    rewrite Bltb_correct by (auto; reflexivity). rewrite A. apply Rlt_bool_false. cbn [B2R]. rewrite <- (round_0 radix2 fx (round_mode mode_NE)). apply round_le; [apply fx_valid|apply valid_rnd_N|apply sqrt_pos].
Qed.

Theorem dist_nonneg : forall p q : @pt DoubleOps, @vltb DoubleOps (@vdist DoubleOps p q) (@val0 DoubleOps) = false.
Proof. intros [[x y] z] [[x' y'] z']. cbn [vdist vltb val0 DoubleOps proj1_sig]. apply root_nonneg. Qed.

(* ---------------------------------------------------------------- *)
(** * Center *)

Definition three : double := nearest false 3 1.
Definition third (u v w : double) : double := divided (plus (plus u v) w) three.

Lemma three_R : B2R three = 3%R.
Proof.
  assert (E : B2SF three = S754_finite false 6755399441055744 (-51)) by (vm_compute; reflexivity).
  rewrite <- SF2R_B2SF, E. unfold SF2R, F2R. cbn. lra.
Qed.

Lemma third_ok : forall (u v w : double) M, is_finite u = true -> is_finite v = true -> is_finite w = true ->
  (Rabs (B2R u) <= M)%R -> (Rabs (B2R v) <= M)%R -> (Rabs (B2R w) <= M)%R -> (M <= bpow radix2 1020)%R ->
  is_finite (third u v w) = true /\ (Rabs (B2R (third u v w) - (B2R u + B2R v + B2R w) / 3) <= bpow radix2 (-51) * M + bpow radix2 (-1073))%R.
Proof.
  intros u v w M Fu Fv Fw Hu Hv Hw HM.
  assert (E1 : bpow radix2 1021 = (2 * bpow radix2 1020)%R) by (change 1021 with (1 + 1020); rewrite bpow_plus; reflexivity).
  assert (E2 : bpow radix2 1022 = (4 * bpow radix2 1020)%R) by (change 1022 with (2 + 1020); rewrite bpow_plus; reflexivity).
  assert (P0 : (0 < bpow radix2 1020)%R) by apply bpow_gt_0.
  assert (S1 : (Rabs (B2R u + B2R v) <= 2 * M)%R) by (eapply Rle_trans; [apply Rabs_triang|]; lra).
  destruct (plus_ok u v 1021 Fu Fv ltac:(lia) ltac:(lra)) as (A1 & B1 & C1).
  assert (S2 : (Rabs (B2R (plus u v) + B2R w) <= bpow radix2 1022)%R) by (eapply Rle_trans; [apply Rabs_triang|]; lra).
  destruct (plus_ok (plus u v) w 1022 A1 Fw ltac:(lia) S2) as (A2 & B2 & C2).
  pose proof (Bdiv_correct 53 1024 prec53 prec_emax mode_NE (plus (plus u v) w) three) as K. rewrite three_R in K. specialize (K ltac:(lra)).
  set (r1 := plus u v) in *. set (r2 := plus r1 w) in *.
  change (round radix2 fx (round_mode mode_NE) (B2R r2 / 3)) with (rn (B2R r2 / 3)) in K.
  assert (S3 : (Rabs (B2R r2 / 3) <= bpow radix2 1022)%R).
  { unfold Rdiv. rewrite Rabs_mult, (Rabs_pos_eq (/ 3)) by lra. pose proof (Rabs_pos (B2R r2)). lra. }
  rewrite Rlt_bool_true in K by (eapply Rle_lt_trans; [apply (rn_abs _ 1022); [lia|exact S3]|apply bpow_lt; lia]).
  destruct K as (K1 & K2 & _). unfold third, divided. fold r1. fold r2. rewrite K1, K2. split; [exact A2|]. clear K1 K2.
  pose proof (rn_error (B2R u + B2R v)) as D1. pose proof (rn_error (B2R r1 + B2R w)) as D2. pose proof (rn_error (B2R r2 / 3)) as D3. rewrite <- B1 in D1. rewrite <- B2 in D2.
  assert (P51 : (bpow radix2 (-51) = 4 * bpow radix2 (-53))%R) by (change (-51) with (2 + -53); rewrite bpow_plus; reflexivity).
  assert (P1073 : (bpow radix2 (-1073) = 4 * bpow radix2 (-1075))%R) by (change (-1073) with (2 + -1075); rewrite bpow_plus; reflexivity).
  rewrite P51, P1073. set (e := bpow radix2 (-53)) in *. set (n := bpow radix2 (-1075)) in *.
  assert (He : (0 < e <= / 100)%R).
  { split; [apply bpow_gt_0|]. apply Rle_trans with (bpow radix2 (-7)); [apply bpow_le; lia|]. cbn. lra. }
  assert (Hn : (0 < n)%R) by apply bpow_gt_0. clearbody e n. set (c := rn (B2R r2 / 3)) in *. clearbody c.
  set (a1 := B2R r1) in *. set (a2 := B2R r2) in *. clearbody a1 a2. set (x := B2R u) in *. set (y := B2R v) in *. set (z := B2R w) in *. clearbody x y z.
  assert (M0 : (0 <= M)%R) by (pose proof (Rabs_pos x); lra).
  assert (X1 : (e * Rabs (x + y) <= e * (2 * M))%R) by (apply Rmult_le_compat_l; lra).
  assert (T1 : (Rabs a1 <= 2 * M + (e * (2 * M) + n))%R) by (replace a1 with ((x + y) + (a1 - (x + y)))%R by ring; eapply Rle_trans; [apply Rabs_triang|]; lra).
  assert (T2 : (Rabs (a1 + z) <= 3 * M + (e * (2 * M) + n))%R) by (eapply Rle_trans; [apply Rabs_triang|]; lra).
  assert (X2 : (e * Rabs (a1 + z) <= e * (3 * M + (e * (2 * M) + n)))%R) by (apply Rmult_le_compat_l; lra).
  assert (eM : (0 <= e * M)%R) by (apply Rmult_le_pos; lra).
  assert (eeM : (e * (e * M) <= / 100 * (e * M))%R) by (apply Rmult_le_compat_r; lra).
  assert (en : (e * n <= / 100 * n)%R) by (apply Rmult_le_compat_r; lra).
  assert (X2' : (e * Rabs (a1 + z) <= 3 * (e * M) + 2 * / 100 * (e * M) + / 100 * n)%R) by (eapply Rle_trans; [exact X2|]; lra).
  assert (T3 : (Rabs a2 <= 3 * M + 6 * (e * M) + 3 * n)%R) by (replace a2 with ((a1 + z) + (a2 - (a1 + z)))%R by ring; eapply Rle_trans; [apply Rabs_triang|]; lra).
  assert (T4 : (Rabs (a2 / 3) <= M + 2 * (e * M) + n)%R) by (unfold Rdiv; rewrite Rabs_mult, (Rabs_pos_eq (/ 3)) by lra; lra).
  assert (X3 : (e * Rabs (a2 / 3) <= e * (M + 2 * (e * M) + n))%R) by (apply Rmult_le_compat_l; lra).
  assert (X3' : (e * Rabs (a2 / 3) <= e * M + 2 * / 100 * (e * M) + / 100 * n)%R) by (eapply Rle_trans; [exact X3|]; lra).
  apply Rabs_le. apply Rabs_le_inv in D1. apply Rabs_le_inv in D2. apply Rabs_le_inv in D3. split; lra.
Qed.

Lemma cen_at : forall x y z x' y' z' x'' y'' z'', @vcen DoubleOps (x, y, z) (x', y', z') (x'', y'', z'') =
  (num (third (proj1_sig x) (proj1_sig x') (proj1_sig x'')), num (third (proj1_sig y) (proj1_sig y') (proj1_sig y'')),
   num (third (proj1_sig z) (proj1_sig z') (proj1_sig z''))).
Proof. reflexivity. Qed.

Theorem center_main : forall (p q r : @pt DoubleOps) M, finite_pt p -> finite_pt q -> finite_pt r -> at_most M p -> at_most M q -> at_most M r -> (M <= bpow radix2 1020)%R ->
  let c := @vcen DoubleOps p q r in finite_pt c /\
  (Rabs (rx c - (rx p + rx q + rx r) / 3) <= bpow radix2 (-51) * M + bpow radix2 (-1073))%R /\
  (Rabs (ry c - (ry p + ry q + ry r) / 3) <= bpow radix2 (-51) * M + bpow radix2 (-1073))%R /\
  (Rabs (rz c - (rz p + rz q + rz r) / 3) <= bpow radix2 (-51) * M + bpow radix2 (-1073))%R.
Proof.
  intros [[x y] z] [[x' y'] z'] [[x'' y''] z''] M (F1 & F2 & F3) (G1 & G2 & G3) (H1 & H2 & H3) (A1 & A2 & A3) (B1 & B2 & B3) (C1 & C2 & C3) HM c. unfold c. rewrite cen_at.
  cbn [rx ry rz finite_pt] in *.
  destruct (third_ok _ _ _ M F1 G1 H1 A1 B1 C1 HM) as [I1 J1]. destruct (third_ok _ _ _ M F2 G2 H2 A2 B2 C2 HM) as [I2 J2]. destruct (third_ok _ _ _ M F3 G3 H3 A3 B3 C3 HM) as [I3 J3].
  rewrite !num_finite by assumption. auto.
Qed.
