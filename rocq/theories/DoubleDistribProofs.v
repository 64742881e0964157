(** Proofs about the printed deviation of the distribution of faces. *)

From Coq Require Import ZArith NArith Reals Lra Lia Ascii String Bool List Floats.SpecFloat.
From Flocq Require Import Core.Core IEEE754.BinarySingleNaN.
From Verif Require Import Py PyLemmas TextLemmas UtilsProofs Heap GridModel GridSpec Zam ZamSpec ZamProofs Info InfoSpec InfoProofs StoreSpec Double DoubleSpec DoubleProofs DoubleMore DoubleExport DoubleExportProofs
  DoubleGeomSpec DoubleGeom DoubleDist DoubleStats DoubleStatsSpec DoubleStatsProofs DoubleDistrib.
Import ListNotations.
Open Scope list_scope.
Open Scope Z_scope.

Lemma fin_notnan : forall x : double, is_finite x = true -> is_nan x = false.
Proof. intros [s|s| |s m e H] F; try reflexivity; discriminate F. Qed.

Lemma times_sign : forall (u v : double) e, is_finite u = true -> is_finite v = true -> -1074 <= e <= 1023 -> (Rabs (B2R u * B2R v) <= bpow radix2 e)%R ->
  Bsign u = false -> Bsign v = false -> Bsign (times u v) = false.
Proof.
  intros u v e Fu Fv He Bd Su Sv. destruct (times_ok u v e Fu Fv He Bd) as (A & _ & _).
  pose proof (Bmult_correct 53 1024 prec53 prec_emax mode_NE u v) as C. change (round radix2 fx (round_mode mode_NE) (B2R u * B2R v)) with (rn (B2R u * B2R v)) in C.
  rewrite Rlt_bool_true in C; [|eapply Rle_lt_trans; [apply (rn_abs _ e); [lia|exact Bd]|apply bpow_lt; lia]]. destruct C as (_ & _ & Sg).
  fold (times u v) in Sg. rewrite (Sg (fin_notnan _ A)), Su, Sv. reflexivity.
Qed.

Lemma divided_ok : forall (u v : double) e, is_finite u = true -> (B2R v <> 0)%R -> -1074 <= e <= 1023 -> (Rabs (B2R u / B2R v) <= bpow radix2 e)%R ->
  Bsign u = false -> Bsign v = false -> is_finite (divided u v) = true /\ B2R (divided u v) = rn (B2R u / B2R v) /\ Bsign (divided u v) = false.
Proof.
  intros u v e Fu Nz He Bd Su Sv. pose proof (Bdiv_correct 53 1024 prec53 prec_emax mode_NE u v Nz) as D.
  change (round radix2 fx (round_mode mode_NE) (B2R u / B2R v)) with (rn (B2R u / B2R v)) in D.
  rewrite Rlt_bool_true in D by (eapply Rle_lt_trans; [apply (rn_abs _ e); [lia|exact Bd]|apply bpow_lt; lia]).
  destruct D as (D1 & D2 & D3). fold (divided u v) in D1, D2, D3. rewrite Fu in D2. split; [exact D2|]. split; [exact D1|]. rewrite (D3 (fin_notnan _ D2)), Su, Sv. reflexivity.
Qed.

Lemma minus_sign : forall (u v : double) e, is_finite u = true -> is_finite v = true -> -1074 <= e <= 1023 -> (Rabs (B2R u - B2R v) <= bpow radix2 e)%R -> (B2R v <= B2R u)%R ->
  Bsign u = false -> Bsign (minus u v) = false.
Proof.
  intros u v e Fu Fv He Bd Le Su. pose proof (Bminus_correct 53 1024 prec53 prec_emax mode_NE u v Fu Fv) as C.
  change (round radix2 fx (round_mode mode_NE) (B2R u - B2R v)) with (rn (B2R u - B2R v)) in C.
  rewrite Rlt_bool_true in C; [|eapply Rle_lt_trans; [apply (rn_abs _ e); [lia|exact Bd]|apply bpow_lt; lia]]. destruct C as (_ & _ & Sg). fold (minus u v) in Sg. rewrite Sg, Su.
  destruct (Rcompare_spec (B2R u - B2R v) 0); [lra|reflexivity|reflexivity].
Qed.

(** The mean. *)
Lemma mean_main : forall fc zc, 0 < fc -> 0 < zc -> fc * zc <= 2 ^ 35 ->
  is_finite (ideal_mean fc zc) = true /\ B2R (ideal_mean fc zc) = rn (IZR fc / IZR zc) /\ Bsign (ideal_mean fc zc) = false.
Proof.
  intros fc zc Pf Pz L. assert (fc <= 2 ^ 35 /\ zc <= 2 ^ 35) as [Lf Lz] by nia.
  destruct (int_double fc ltac:(lia)) as (F1 & R1 & S1). destruct (int_double zc ltac:(lia)) as (F2 & R2 & S2). unfold ideal_mean.
  assert (Zr : (1 <= IZR zc)%R) by (apply IZR_le; lia). assert (Fr : (1 <= IZR fc)%R) by (apply IZR_le; lia).
  assert (Bd : (Rabs (B2R (of_decimal false fc 0) / B2R (of_decimal false zc 0)) <= bpow radix2 35)%R).
  { rewrite R1, R2. rewrite Rabs_pos_eq by (apply Rmult_le_pos; [lra|left; apply Rinv_0_lt_compat; lra]).
    apply Rle_trans with (IZR fc); [|rewrite <- (IZR_Zpower radix2 35) by lia; apply IZR_le; exact Lf].
    apply Rmult_le_reg_r with (IZR zc); [lra|]. unfold Rdiv. rewrite Rmult_assoc, Rinv_l by lra. nra. }
  assert (Nz : (B2R (of_decimal false zc 0) <> 0)%R) by (rewrite R2; lra).
  destruct (divided_ok _ _ 35 F1 Nz ltac:(lia) Bd S1 S2) as (A & B & C). rewrite R1, R2 in B. auto.
Qed.

Lemma rn_nonneg : forall x, (0 <= x)%R -> (0 <= rn x)%R.
Proof. intros x H. replace 0%R with (rn 0) by (unfold rn; apply round_0, valid_rnd_N). apply rn_le. exact H. Qed.

(** The operations one after another, over real numbers: the result is near the exact deviation. *)
Lemma deviation_error : forall M q y t s r d n, (1 <= M)%R -> (0 < q <= M)%R -> (0 < d <= / 10000)%R -> (0 <= n)%R -> (n <= d * q)%R -> (n <= d)%R ->
  (Rabs (y - q) <= d * q + n)%R -> (y <= M)%R -> (Rabs (t - (M - y)) <= d * (M - y) + n)%R -> (0 <= t <= M)%R -> (0 <= s)%R ->
  (Rabs (s - 100 * t) <= d * (100 * t) + n)%R -> (Rabs (r - s / y) <= d * (s / y) + n)%R ->
  (Rabs (r - 100 * (M - q) / q) <= 815 * d * (M / q))%R.
Proof.
  intros M q y t s r d n HM Hq Hd Hn Hnq Hnd Hy HyM Ht Ht' Hs' Hs Hr.
  assert (P : (1 <= M / q)%R) by (apply Rmult_le_reg_r with q; [lra|]; unfold Rdiv; rewrite Rmult_assoc, Rinv_l; lra).
  assert (dM : (d <= d * M)%R) by nra. assert (dq : (d * q <= d * M)%R) by (apply Rmult_le_compat_l; lra).
  assert (Hy2 : (q * (1 - 2 * d) <= y)%R) by (apply Rabs_le_inv in Hy; lra).
  assert (Yp : (q * (9998 / 10000) <= y)%R) by nra.
  assert (T1 : (Rabs (t - (M - q)) <= 4 * (d * M))%R).
  { replace (t - (M - q))%R with ((t - (M - y)) + (q - y))%R by ring. eapply Rle_trans; [apply Rabs_triang|]. rewrite (Rabs_minus_sym q y).
    assert (d * (M - y) <= d * M)%R by (apply Rmult_le_compat_l; lra). lra. }
  assert (S1 : (Rabs (s - 100 * (M - q)) <= 501 * (d * M))%R).
  { replace (s - 100 * (M - q))%R with ((s - 100 * t) + 100 * (t - (M - q)))%R by ring. eapply Rle_trans; [apply Rabs_triang|]. rewrite Rabs_mult, (Rabs_pos_eq 100) by lra.
    assert (d * t <= d * M)%R by (apply Rmult_le_compat_l; lra). lra. }
  set (D := (100 * (M - q) / q)%R).
  assert (D1 : (Rabs (s - D * y) <= 701 * (d * M))%R).
  { replace (s - D * y)%R with ((s - 100 * (M - q)) + - (100 * ((M - q) / q) * (y - q)))%R by (unfold D; field; lra).
    eapply Rle_trans; [apply Rabs_triang|]. rewrite Rabs_Ropp, Rabs_mult.
    assert (Q1 : (0 <= (M - q) / q)%R) by (apply Rmult_le_pos; [lra|left; apply Rinv_0_lt_compat; lra]).
    rewrite (Rabs_pos_eq (100 * ((M - q) / q))) by lra.
    assert (Q2 : (100 * ((M - q) / q) * Rabs (y - q) <= 200 * (d * M))%R).
    { apply Rle_trans with (100 * ((M - q) / q) * (2 * d * q))%R; [apply Rmult_le_compat_l; lra|].
      replace (100 * ((M - q) / q) * (2 * d * q))%R with (200 * (d * (M - q)))%R by (field; lra).
      apply Rmult_le_compat_l; [lra|]. apply Rmult_le_compat_l; lra. }
    lra. }
  assert (Yp0 : (0 < y)%R) by lra.
  assert (I : (/ y <= (10000 / 9998) * / q)%R).
  { replace ((10000 / 9998) * / q)%R with (/ (q * (9998 / 10000)))%R by (field; lra). apply Rinv_le; lra. }
  assert (Mq : (M / q = M * / q)%R) by reflexivity. assert (Iq : (0 < / q)%R) by (apply Rinv_0_lt_compat; lra). assert (Iy : (0 < / y)%R) by (apply Rinv_0_lt_compat; lra).
  assert (E1 : (Rabs (s / y - D) <= 702 * (d * (M / q)))%R).
  { replace (s / y - D)%R with ((s - D * y) * / y)%R by (field; lra). rewrite Rabs_mult, (Rabs_pos_eq (/ y)) by lra.
    apply Rle_trans with (701 * (d * M) * ((10000 / 9998) * / q))%R.
    - apply Rmult_le_compat; [apply Rabs_pos|lra|exact D1|exact I].
    - unfold Rdiv. assert (0 <= d * (M * / q))%R by (rewrite <- Mq; apply Rmult_le_pos; lra). lra. }
  assert (Sb : (s <= 101 * M)%R).
  { apply Rabs_le_inv in Hs. assert (d * (100 * t) <= / 10000 * (100 * M))%R by (apply Rmult_le_compat; lra). lra. }
  assert (E2 : (s / y <= 102 * (M / q))%R).
  { unfold Rdiv. apply Rle_trans with (101 * M * ((10000 / 9998) * / q))%R; [apply Rmult_le_compat; lra|]. rewrite Mq in P. lra. }
  assert (E3 : (d * (s / y) <= d * (102 * (M / q)))%R) by (apply Rmult_le_compat_l; lra).
  replace (r - D)%R with ((r - s / y) + (s / y - D))%R by ring. eapply Rle_trans; [apply Rabs_triang|].
  assert (E4 : (d <= d * (M / q))%R) by nra. lra.
Qed.

Theorem deviation_main : forall mx fc zc, 0 < fc -> 0 < zc -> mx <= fc -> fc <= mx * zc -> fc * zc <= 2 ^ 35 ->
  exists m, two_places m (write_hundredths (deviation mx fc zc)) /\ 2 * Z.abs (m * fc - 10000 * (mx * zc - fc)) <= fc /\ 0 <= m.
Proof.
  intros mx fc zc Pf Pz Lm Ge L. assert (fc <= 2 ^ 35 /\ zc <= 2 ^ 35) as [Lf Lz] by nia. assert (Pm : 1 <= mx) by nia.
  destruct (mean_main fc zc Pf Pz L) as (Fy & Ry & Sy). destruct (int_double mx ltac:(lia)) as (Fm & Rm & Sm). destruct (int_double 100 ltac:(lia)) as (Fh & Rh & Sh).
  unfold deviation. rewrite hundred. set (y := ideal_mean fc zc) in *. set (u := of_decimal false mx 0) in *. set (c := of_decimal false 100 0) in *. clearbody y u c.
  assert (Zr : (1 <= IZR zc <= 34359738368)%R) by (split; apply IZR_le; lia). assert (Fr : (1 <= IZR fc <= 34359738368)%R) by (split; apply IZR_le; lia). assert (Mr : (1 <= IZR mx <= IZR fc)%R) by (split; apply IZR_le; lia).
  assert (GeR : (IZR fc <= IZR mx * IZR zc)%R) by (rewrite <- mult_IZR; apply IZR_le; lia).
  assert (LR : (IZR fc * IZR zc <= 34359738368)%R) by (rewrite <- mult_IZR; apply IZR_le; lia).
  set (M := IZR mx) in *. set (q := (IZR fc / IZR zc)%R) in *.
  assert (Iz : (/ 34359738368 <= / IZR zc <= 1)%R) by (split; [apply Rinv_le; lra|rewrite <- Rinv_1; apply Rinv_le; lra]).
  assert (Q : (/ 34359738368 <= q <= M)%R).
  { split; [unfold q, Rdiv; nra|]. apply Rmult_le_reg_r with (IZR zc); [lra|]. unfold q, Rdiv. rewrite Rmult_assoc, Rinv_l by lra. lra. }
  assert (B35 : (bpow radix2 35 = 34359738368)%R) by (rewrite <- (IZR_Zpower radix2 35) by lia; reflexivity).
  assert (YM : (B2R y <= M)%R) by (rewrite Ry; rewrite <- (rn_id M (fmt_int mx ltac:(lia))); apply rn_le; apply Q).
  pose proof (rn_error q) as Ey. rewrite <- Ry, (Rabs_pos_eq q) in Ey by lra.
  set (d := bpow radix2 (-53)) in *. set (n := bpow radix2 (-1075)) in *.
  assert (Dp : (0 < d)%R) by apply bpow_gt_0. assert (Np : (0 < n)%R) by apply bpow_gt_0.
  assert (Nd : (n <= d * / 34359738368)%R).
  { replace (/ 34359738368)%R with (bpow radix2 (-35)) by (change (-35) with (- (35)); rewrite bpow_opp, B35; reflexivity). unfold n, d. rewrite <- bpow_plus. apply bpow_le. lia. }
  assert (Ds : (d * 9007199254740992 = 1)%R).
  { replace 9007199254740992%R with (bpow radix2 53) by (rewrite <- (IZR_Zpower radix2 53) by lia; reflexivity). unfold d. rewrite <- bpow_plus. reflexivity. }
  assert (Nq : (n <= d * q)%R) by (eapply Rle_trans; [exact Nd|apply Rmult_le_compat_l; lra]).
  assert (Y0 : (0 < B2R y)%R) by (apply Rabs_le_inv in Ey; nra).
  (* the difference *)
  assert (Bt : (Rabs (B2R u - B2R y) <= bpow radix2 35)%R) by (rewrite Rm, Rabs_pos_eq, B35 by lra; lra).
  destruct (minus_ok u y 35 Fm Fy ltac:(lia) Bt) as (Ft & Rt & _). pose proof (minus_sign u y 35 Fm Fy ltac:(lia) Bt ltac:(lra) Sm) as St.
  pose proof (rn_error (B2R u - B2R y)) as Et. rewrite <- Rt, Rm in Et. fold d n in Et. rewrite (Rabs_pos_eq (M - B2R y)) in Et by lra.
  assert (T0 : (0 <= B2R (minus u y) <= M)%R).
  { rewrite Rt, Rm. split; [apply rn_nonneg; lra|]. rewrite <- (rn_id M (fmt_int mx ltac:(lia))). apply rn_le. rewrite (rn_id M (fmt_int mx ltac:(lia))). lra. }
  set (t := minus u y) in *. clearbody t.
  (* times a hundred *)
  assert (Bs : (Rabs (B2R c * B2R t) <= bpow radix2 42)%R).
  { rewrite Rh, Rabs_pos_eq by lra. replace (bpow radix2 42) with (128 * bpow radix2 35)%R by (change 42 with (7 + 35); rewrite bpow_plus; cbn; lra). rewrite B35. lra. }
  destruct (times_ok c t 42 Fh Ft ltac:(lia) Bs) as (Fs & Rs & Bs'). pose proof (times_sign c t 42 Fh Ft ltac:(lia) Bs Sh St) as Ss.
  pose proof (rn_error (B2R c * B2R t)) as Es. rewrite <- Rs, Rh in Es. fold d n in Es. rewrite (Rabs_pos_eq (100 * B2R t)) in Es by lra.
  assert (S0 : (0 <= B2R (times c t))%R) by (rewrite Rs, Rh; apply rn_nonneg; lra).
  set (s := times c t) in *. clearbody s.
  (* divided by the mean *)
  assert (Yb : (/ B2R y <= 2 * 34359738368)%R).
  { replace (2 * 34359738368)%R with (/ (/ (2 * 34359738368)))%R by field. apply Rinv_le; [lra|]. apply Rabs_le_inv in Ey. nra. }
  assert (Br : (Rabs (B2R s / B2R y) <= bpow radix2 80)%R).
  { apply Rabs_le_inv in Bs'. assert (Iy : (0 < / B2R y)%R) by (apply Rinv_0_lt_compat; lra). rewrite Rabs_pos_eq by (apply Rmult_le_pos; lra).
    apply Rle_trans with (bpow radix2 42 * bpow radix2 36)%R; [|rewrite <- bpow_plus; apply bpow_le; lia].
    apply Rmult_le_compat; try lra. replace (bpow radix2 36) with (2 * bpow radix2 35)%R by (change 36 with (1 + 35); rewrite bpow_plus; reflexivity). rewrite B35. exact Yb. }
  destruct (divided_ok s y 80 Fs ltac:(lra) ltac:(lia) Br Ss Sy) as (F & R & Sg).
  pose proof (rn_error (B2R s / B2R y)) as Er. rewrite <- R in Er. fold d n in Er. rewrite (Rabs_pos_eq (B2R s / B2R y)) in Er by (apply Rmult_le_pos; [lra|left; apply Rinv_0_lt_compat; lra]).
  set (r := divided s y) in *. clearbody r.
  assert (E : (Rabs (B2R r - 100 * (M - q) / q) <= 815 * d * (M / q))%R).
  { apply (deviation_error M q (B2R y) (B2R t) (B2R s) (B2R r) d n); try assumption; try lra. }
  assert (Mq : (0 < M / q <= IZR zc)%R).
  { split; [apply Rdiv_lt_0_compat; lra|]. apply Rmult_le_reg_r with q; [lra|]. unfold Rdiv. rewrite Rmult_assoc, Rinv_l by lra. replace (IZR zc * q)%R with (IZR fc) by (unfold q; field; lra). lra. }
  (* the text *)
  destruct (write_hundredths_at r F) as (m & Pm' & W & P). rewrite Sg in *. cbn [zsigned] in P. exists m. rewrite W. split; [apply hundredths_two; exact Pm'|]. split; [|exact Pm'].
  destruct (places_ok 2 r ltac:(lia) F) as (_ & _ & _ & _ & Near & _). rewrite P in Near.
  assert (T2 : ten 2 = 100%R) by (unfold ten; cbn; lra). rewrite T2 in Near. set (X := (100 * (M - q) / q)%R) in *.
  assert (Ef : (Rabs (IZR m - X * 100) <= / 2 + 81500 * (d * IZR zc))%R).
  { replace (IZR m - X * 100)%R with ((IZR m - B2R r * 100) + 100 * (B2R r - X))%R by ring. eapply Rle_trans; [apply Rabs_triang|]. rewrite Rabs_mult, (Rabs_pos_eq 100) by lra.
    assert (d * (M / q) <= d * IZR zc)%R by (apply Rmult_le_compat_l; lra). lra. }
  assert (Ex : (Rabs (IZR m - X * 100) * IZR fc = IZR (Z.abs (m * fc - 10000 * (mx * zc - fc))))%R).
  { rewrite abs_IZR, !minus_IZR, !mult_IZR, minus_IZR, mult_IZR. fold M. rewrite <- (Rabs_pos_eq (IZR fc)) at 1 by lra. rewrite <- Rabs_mult. f_equal. unfold X, q. field. lra. }
  assert (Fin : (IZR (2 * Z.abs (m * fc - 10000 * (mx * zc - fc))) < IZR (fc + 1))%R).
  { rewrite mult_IZR, plus_IZR, <- Ex. pose proof (Rmult_le_compat_r (IZR fc) _ _ ltac:(lra) Ef) as G.
    assert (d * (IZR fc * IZR zc) <= d * 34359738368)%R by (apply Rmult_le_compat_l; lra). lra. }
  apply lt_IZR in Fin. lia.
Qed.

Lemma even_deviation : forall mx zc, 0 < mx -> 0 < zc -> mx * zc * zc <= 2 ^ 35 -> write_hundredths (deviation mx (mx * zc) zc) = lit "0.00".
Proof.
  intros mx zc Pm Pz L. destruct (deviation_main mx (mx * zc) zc ltac:(nia) Pz ltac:(nia) ltac:(lia) ltac:(lia)) as (m & (D & _) & N & M).
  (* the mean is exact, the difference is zero *)
  assert (mx <= 2 ^ 35 /\ zc <= 2 ^ 35) as [Lm Lz] by nia.
  destruct (mean_main (mx * zc) zc ltac:(nia) Pz ltac:(lia)) as (Fy & Ry & Sy). destruct (int_double mx ltac:(lia)) as (Fm & Rm & Sm). destruct (int_double 100 ltac:(lia)) as (Fh & Rh & Sh).
  assert (Zr : (1 <= IZR zc)%R) by (apply IZR_le; lia). assert (Mr : (1 <= IZR mx <= 34359738368)%R) by (split; apply IZR_le; lia).
  replace (IZR (mx * zc) / IZR zc)%R with (IZR mx) in Ry by (rewrite mult_IZR; field; lra). rewrite (rn_id _ (fmt_int mx ltac:(lia))) in Ry.
  unfold deviation. rewrite hundred. set (y := ideal_mean (mx * zc) zc) in *. set (u := of_decimal false mx 0) in *. set (c := of_decimal false 100 0) in *. clearbody y u c.
  assert (P0 : forall e, (0 <= bpow radix2 e)%R) by (intros e; apply bpow_ge_0).
  assert (Bt : (Rabs (B2R u - B2R y) <= bpow radix2 0)%R) by (rewrite Rm, Ry, Rminus_diag_eq, Rabs_R0 by reflexivity; apply P0).
  destruct (minus_ok u y 0 Fm Fy ltac:(lia) Bt) as (Ft & Rt & _). pose proof (minus_sign u y 0 Fm Fy ltac:(lia) Bt ltac:(lra) Sm) as St.
  rewrite Rm, Ry, Rminus_diag_eq in Rt by reflexivity. assert (R0 : rn 0 = 0%R) by (unfold rn; apply round_0, valid_rnd_N). rewrite R0 in Rt. set (t := minus u y) in *. clearbody t.
  assert (Bs : (Rabs (B2R c * B2R t) <= bpow radix2 0)%R) by (rewrite Rt, Rmult_0_r, Rabs_R0; apply P0).
  destruct (times_ok c t 0 Fh Ft ltac:(lia) Bs) as (Fs & Rs & _). pose proof (times_sign c t 0 Fh Ft ltac:(lia) Bs Sh St) as Ss. rewrite Rt, Rmult_0_r, R0 in Rs. set (s := times c t) in *. clearbody s.
  assert (Br : (Rabs (B2R s / B2R y) <= bpow radix2 0)%R) by (rewrite Rs; unfold Rdiv; rewrite Rmult_0_l, Rabs_R0; apply P0).
  destruct (divided_ok s y 0 Fs ltac:(lra) ltac:(lia) Br Ss Sy) as (F & R & Sg). rewrite Rs in R. unfold Rdiv in R. rewrite Rmult_0_l, R0 in R.
  destruct (write_hundredths_at _ F) as (m' & M' & W & P). rewrite Sg, R in *. cbn [zsigned] in P. unfold places in P. rewrite Rmult_0_l in P.
  rewrite (near_even 0 0%R) in P; [|rewrite Rminus_0_r, Rabs_R0; lra|reflexivity]. rewrite W, <- P. reflexivity.
Qed.

Lemma list_sum_cons : forall a l, list_sum (a :: l) = (a + list_sum l)%nat.
Proof. reflexivity. Qed.

Lemma part_le : forall (f : nat -> nat) l z, In z l -> (f z <= list_sum (map f l))%nat.
Proof. intros f l z. induction l as [|a l IH]; [intros []|]; intros [E|I]; cbn [map]; rewrite list_sum_cons; [subst a; lia|specialize (IH I); lia]. Qed.

Lemma sum_le : forall (f : nat -> nat) m l, (forall z, In z l -> (f z <= m)%nat) -> (list_sum (map f l) <= m * List.length l)%nat.
Proof.
  intros f m l. induction l as [|a l IH]; intros U; [cbn; lia|]. cbn [map List.length]. rewrite list_sum_cons. pose proof (U a (or_introl eq_refl)). specialize (IH (fun z Hz => U z (or_intror Hz))). lia.
Qed.

Theorem distribution_line_main : forall {F : FloatOps} h, grid_ok h -> zone_lists_ok h -> g_faces h <> [] -> Z.of_nat (List.length (g_faces h)) * Z.of_nat (List.length (g_zones h)) <= 2 ^ 35 ->
  exists mx m t, (exists z, In z (g_zones h) /\ List.length (z_faces h z) = mx) /\ (forall z, In z (g_zones h) -> (List.length (z_faces h z) <= mx)%nat) /\
    distribution_line h = Ok (deviation_line mx t) /\ two_places m t /\
    nearest_share (Z.of_nat mx * Z.of_nat (List.length (g_zones h)) - Z.of_nat (List.length (g_faces h))) (Z.of_nat (List.length (g_faces h))) m /\
    ((forall z y, In z (g_zones h) -> In y (g_zones h) -> List.length (z_faces h z) = List.length (z_faces h y)) -> t = lit "0.00").
Proof.
  intros F h G Zl Ne L. destruct (distribution_works h G Zl Ne) as (((lines & mx) & dv) & E). destruct (distribution_ok h lines mx dv G E) as (Ex & Up & Pos & Zero & Val & _).
  set (fc := List.length (g_faces h)) in *. set (zc := List.length (g_zones h)) in *.
  assert (Pf : (0 < fc)%nat) by (unfold fc; destruct (g_faces h); [congruence|cbn; lia]).
  assert (Pz : (0 < zc)%nat) by (destruct Ex as (z & Iz & _); unfold zc; destruct (g_zones h); [destruct Iz|cbn; lia]).
  assert (Hsum : fc = list_sum (map (fun z => List.length (z_faces h z)) (g_zones h))) by (unfold fc; exact (eq_sym (faces_in_zones h G))).
  assert (Hle : (mx <= fc)%nat).
  { destruct Ex as (z & Iz & <-). rewrite Hsum. exact (part_le (fun z => List.length (z_faces h z)) _ z Iz). }
  assert (Hge : (fc <= mx * zc)%nat).
  { rewrite Hsum. exact (sum_le (fun z => List.length (z_faces h z)) mx _ Up). }
  destruct (deviation_main (Z.of_nat mx) (Z.of_nat fc) (Z.of_nat zc) ltac:(lia) ltac:(lia) ltac:(lia) ltac:(lia) L) as (m & T & N & _).
  exists mx, m. eexists. split; [exact Ex|]. split; [exact Up|]. split; [unfold distribution_line; rewrite E; reflexivity|]. split; [exact T|].
  split; [apply share_nearest; [lia|exact N]|]. intros Same.
  assert (Eq : fc = (mx * zc)%nat).
  { rewrite Hsum. destruct Ex as (z & Iz & <-). unfold zc. assert (K : forall l, incl l (g_zones h) -> list_sum (map (fun z => List.length (z_faces h z)) l) = (List.length (z_faces h z) * List.length l)%nat).
    { induction l as [|a l IH]; intros I; [cbn; lia|]. cbn [map List.length]. rewrite list_sum_cons, IH by (intros x Hx; apply I; right; exact Hx).
      rewrite (Same a z (I a (or_introl eq_refl)) Iz). lia. }
    apply K. intros x Hx. exact Hx. }
  change (faces_count h) with fc. change (zones_count h) with zc. rewrite Eq, Nat2Z.inj_mul. apply even_deviation; nia.
Qed.

Lemma uneven_main : exists mx fc zc, 0 < zc /\ fc < mx * zc /\ mx <= fc /\ write_hundredths (deviation mx fc zc) = lit "0.00".
Proof. exists 10001, 20001, 2. repeat (split; [lia|]). vm_compute. reflexivity. Qed.
