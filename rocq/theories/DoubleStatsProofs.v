(** Proofs about the printed percentages. *)

From Coq Require Import ZArith NArith Reals Lra Lia Ascii String Bool List Floats.SpecFloat.
From Flocq Require Import Core.Core IEEE754.BinarySingleNaN.
From Verif Require Import Py PyLemmas TextLemmas UtilsProofs Heap GridModel GridSpec Zam ZamSpec ZamProofs StoreSpec Double DoubleSpec DoubleProofs DoubleMore DoubleExport DoubleExportProofs
  DoubleGeomSpec DoubleGeom DoubleDist DoubleStats DoubleStatsSpec.
Import ListNotations.
Open Scope list_scope.
Open Scope Z_scope.

Lemma hundredths_decimal : forall s m, 0 <= m -> decimal_text s m (-2) (hundredths_text s m).
Proof.
  intros s m M. assert (Pm : 0 <= m mod 10 ^ 2 < 10 ^ 2) by (apply Z.mod_pos_bound; lia). assert (Pq : 0 <= m / 10 ^ 2) by (apply Z.div_pos; lia).
  set (b := pad0 2 (N_str (Z.to_N (m mod 10 ^ 2)))).
  assert (L : List.length b = 2%nat) by (apply pad0_length, digits_length_le; [|lia]; change (N.of_nat 2) with 2%N; zify; lia).
  assert (V : digits_val b = m mod 10 ^ 2) by (apply pad_val; lia).
  assert (D : all_digits b = true) by apply pad_digits. assert (Da : all_digits (N_str (Z.to_N (m / 10 ^ 2))) = true) by apply all_digits_N_str.
  exists (sign_text s), (N_str (Z.to_N (m / 10 ^ 2))), (lit "."), b, [], 0. split; [unfold hundredths_text; fold b; rewrite app_nil_r; reflexivity|].
  split; [destruct s; [left; split; reflexivity|right; split; [left; reflexivity|reflexivity]]|].
  assert (Dd : forall l, all_digits l = true -> forallb is_digit l = true) by (intros [|c l] K; [discriminate K|exact K]).
  split; [rewrite forallb_app, (Dd _ Da), (Dd _ D); reflexivity|]. split; [intros K; apply app_eq_nil in K; destruct K as [_ K]; rewrite K in L; discriminate L|].
  split; [left; reflexivity|]. split; [left; split; reflexivity|]. split; [|rewrite L; reflexivity].
  unfold digits_val. rewrite fold_left_app, fold_digits. fold (digits_val (N_str (Z.to_N (m / 10 ^ 2)))). rewrite N_str_val, L, V, Z2N.id by lia.
  change (Z.of_nat 2) with 2. rewrite (Z.div_mod m (10 ^ 2)) at 1 by lia. lia.
Qed.

Lemma hundredths_two : forall m, 0 <= m -> two_places m (hundredths_text false m).
Proof.
  intros m M. split; [apply hundredths_decimal; exact M|]. unfold hundredths_text. cbn [sign_text app].
  assert (L : List.length (pad0 2 (N_str (Z.to_N (m mod 10 ^ 2)))) = 2%nat).
  { assert (Pm : 0 <= m mod 10 ^ 2 < 10 ^ 2) by (apply Z.mod_pos_bound; lia). apply pad0_length, digits_length_le; [|lia]; change (N.of_nat 2) with 2%N; zify; lia. }
  destruct (pad0 2 (N_str (Z.to_N (m mod 10 ^ 2)))) as [|b [|c [|d l]]]; try discriminate L.
  exists (N_str (Z.to_N (m / 10 ^ 2))), b, c. split; [reflexivity|]. pose proof (all_digits_N_str (Z.to_N (m / 10 ^ 2))) as A. intros K. rewrite K in A. discriminate A.
Qed.

(** The text of a double. *)
Lemma write_hundredths_at : forall x : double, is_finite x = true -> exists m, 0 <= m /\ write_hundredths x = hundredths_text (Bsign x) m /\ places 2 (B2R x) = zsigned (Bsign x) m.
Proof.
  intros x Fi. destruct x as [s|s| |s k e H]; try discriminate Fi.
  - exists 0. split; [lia|]. split; [reflexivity|]. cbn [Bsign B2R]. unfold places. rewrite Rmult_0_l. rewrite (near_even 0 0%R); [destruct s; reflexivity| |reflexivity].
    rewrite Rminus_0_r, Rabs_R0. lra.
  - cbn [Bsign write_hundredths] in *. destruct (fraction_ok k e) as (A & B & C). destruct (fraction k e) as [a b]. cbn [fst snd] in *.
    exists (round_div (a * 10 ^ 2) b). assert (R0 : 0 <= round_div (a * 10 ^ 2) b) by (apply round_div_ok; [apply Z.mul_nonneg_nonneg; lia|exact B]).
    split; [exact R0|]. split; [reflexivity|].
    destruct (round_div_ok (a * 10 ^ 2) b ltac:(apply Z.mul_nonneg_nonneg; lia) B) as (_ & R1 & R2). set (q := round_div (a * 10 ^ 2) b) in *. clearbody q.
    assert (Pb : (0 < IZR b)%R) by (apply IZR_lt; exact B).
    set (t := (B2R (B754_finite s k e H : double) * ten 2)%R).
    assert (T : t = signed s (IZR (a * 10 ^ 2) / IZR b)).
    { unfold t. rewrite finite_R, <- C, mult_IZR, p10_Z by lia. unfold ten. destruct s; cbn [signed]; field; lra. }
    assert (D : Rabs (IZR (zsigned s q) - t) = (IZR (Z.abs (q * b - a * 10 ^ 2)) / IZR b)%R).
    { rewrite T, zsigned_R. replace (signed s (IZR q) - signed s (IZR (a * 10 ^ 2) / IZR b))%R with (signed s (IZR (q * b - a * 10 ^ 2) / IZR b)).
      - replace (Rabs (signed s (IZR (q * b - a * 10 ^ 2) / IZR b))) with (Rabs (IZR (q * b - a * 10 ^ 2) / IZR b)) by (destruct s; cbn [signed]; [rewrite Rabs_Ropp|]; reflexivity).
        unfold Rdiv. rewrite Rabs_mult, Rabs_inv, (Rabs_pos_eq (IZR b)) by lra. rewrite abs_IZR. reflexivity.
      - rewrite minus_IZR, mult_IZR. destruct s; cbn [signed]; field; lra. }
    unfold places. fold t. apply near_even; rewrite D.
    + apply Rmult_le_reg_r with (IZR b); [exact Pb|]. unfold Rdiv. rewrite Rmult_assoc, Rinv_l by lra. apply IZR_le in R1. rewrite mult_IZR in R1. lra.
    + intros K. assert (K' : 2 * Z.abs (q * b - a * 10 ^ 2) = b).
      { apply eq_IZR. rewrite mult_IZR. apply (f_equal (fun u => u * IZR b)%R) in K. unfold Rdiv in K. rewrite Rmult_assoc, Rinv_l in K by lra. lra. }
      apply R2 in K'. destruct s; cbn [zsigned]; [rewrite Z.even_opp|]; exact K'.
Qed.

Lemma fmt_int : forall k, Z.abs k < 2 ^ 53 -> generic_format radix2 fx (IZR k).
Proof.
  intros k K. apply (generic_format_FLT radix2 (-1074) 53). exists (Float radix2 k 0); [unfold F2R; cbn; ring|exact K|cbn; lia].
Qed.

Lemma int_double : forall k, 0 <= k < 2 ^ 53 -> is_finite (of_decimal false k 0) = true /\ B2R (of_decimal false k 0) = IZR k /\ Bsign (of_decimal false k 0) = false.
Proof.
  intros k K. destruct (decimal_nearest false k 0 ltac:(lia)) as (A & B & _). assert (T : ten 0 = 1%R) by reflexivity. rewrite T, Rmult_1_r in *. clear T.
  destruct (Z.eq_dec k 0) as [->|N].
  - rewrite (A eq_refl). auto.
  - change (rounded (IZR k)) with (rn (IZR k)) in B. rewrite (rn_id (IZR k) (fmt_int k ltac:(lia))) in B. cbn [signed] in B. apply B; [apply IZR_lt; lia|].
    apply Rlt_trans with (IZR (2 ^ 53)); [apply IZR_lt; lia|]. change (2 ^ 53) with (radix2 ^ 53). rewrite IZR_Zpower by lia. apply bpow_lt. lia.
Qed.

Lemma hundred : nearest false 100 1 = of_decimal false 100 0.
Proof. reflexivity. Qed.

(** The percentage is computed with one rounding. *)
Theorem percentage_main : forall k n, 0 <= k <= n -> 0 < n <= 2 ^ 46 ->
  is_finite (percentage k n) = true /\ B2R (percentage k n) = rounded (100 * IZR k / IZR n) /\ Bsign (percentage k n) = false.
Proof.
  intros k n K N. unfold percentage. rewrite hundred.
  destruct (int_double 100 ltac:(lia)) as (F1 & R1 & S1). destruct (int_double k ltac:(lia)) as (F2 & R2 & S2). destruct (int_double n ltac:(lia)) as (F3 & R3 & S3).
  set (u := of_decimal false 100 0) in *. set (v := of_decimal false k 0) in *. set (w := of_decimal false n 0) in *. clearbody u v w.
  assert (Kr : (0 <= IZR k <= IZR n)%R) by (split; apply IZR_le; lia). assert (Nr : (0 < IZR n)%R) by (apply IZR_lt; lia).
  assert (Bd : (Rabs (B2R u * B2R v) <= bpow radix2 53)%R).
  { rewrite R1, R2, <- mult_IZR, Rabs_pos_eq by (apply IZR_le; lia). rewrite <- (IZR_Zpower radix2 53) by lia. apply IZR_le. change (radix2 ^ 53) with (2 ^ 53). lia. }
  destruct (times_ok u v 53 F1 F2 ltac:(lia) Bd) as (A & B & _).
  pose proof (Bmult_correct 53 1024 prec53 prec_emax mode_NE u v) as C. change (round radix2 fx (round_mode mode_NE) (B2R u * B2R v)) with (rn (B2R u * B2R v)) in C.
  rewrite Rlt_bool_true in C; [|eapply Rle_lt_trans; [apply (rn_abs _ 53); [lia|exact Bd]|apply bpow_lt; lia]]. destruct C as (_ & _ & Sg).
  fold (times u v) in Sg. assert (Nn : is_nan (times u v) = false) by (destruct (times u v); try reflexivity; discriminate A). specialize (Sg Nn). rewrite S1, S2 in Sg.
  rewrite R1, R2, <- mult_IZR, (rn_id _ (fmt_int (100 * k) ltac:(lia))) in B.
  pose proof (Bdiv_correct 53 1024 prec53 prec_emax mode_NE (times u v) w) as D. rewrite R3 in D. specialize (D ltac:(lra)). rewrite B in D.
  change (round radix2 fx (round_mode mode_NE) (IZR (100 * k) / IZR n)) with (rn (IZR (100 * k) / IZR n)) in D.
  assert (Q : (0 <= IZR (100 * k) / IZR n <= 100)%R).
  { rewrite mult_IZR. split; [apply Rmult_le_pos; [lra|]; left; apply Rinv_0_lt_compat; exact Nr|]. apply Rmult_le_reg_r with (IZR n); [exact Nr|]. unfold Rdiv. rewrite Rmult_assoc, Rinv_l by lra. lra. }
  assert (B7 : (Rabs (IZR (100 * k) / IZR n) <= bpow radix2 7)%R).
  { rewrite Rabs_pos_eq by apply Q. eapply Rle_trans; [apply Q|]. rewrite <- (IZR_Zpower radix2 7) by lia. apply IZR_le. discriminate. }
  rewrite Rlt_bool_true in D by (eapply Rle_lt_trans; [apply (rn_abs _ 7); [lia|exact B7]|apply bpow_lt; lia]).
  destruct D as (D1 & D2 & D3). fold (divided (times u v) w) in D1, D2, D3. rewrite A in D2. split; [exact D2|]. split; [rewrite D1, mult_IZR; reflexivity|].
  rewrite D3, Sg, S3; [reflexivity|]. destruct (divided (times u v) w); try reflexivity; discriminate D2.
Qed.

Theorem share_main : forall k n, 0 <= k <= n -> 0 < n <= 2 ^ 38 -> exists m, two_places m (write_hundredths (percentage k n)) /\ 2 * Z.abs (m * n - 10000 * k) <= n /\ 0 <= m.
Proof.
  intros k n K N. destruct (percentage_main k n K ltac:(lia)) as (F & R & Sg). destruct (write_hundredths_at _ F) as (m & M & W & P). rewrite Sg in *. cbn [zsigned] in P.
  exists m. rewrite W. split; [apply hundredths_two; exact M|]. split; [|exact M].
  assert (Kr : (0 <= IZR k <= IZR n)%R) by (split; apply IZR_le; lia). assert (Nr : (0 < IZR n)%R) by (apply IZR_lt; lia).
  destruct (places_ok 2 (percentage k n) ltac:(lia) F) as (_ & _ & _ & _ & Near & _). rewrite P, R in Near. change (rounded (100 * IZR k / IZR n)) with (rn (100 * IZR k / IZR n)) in Near.
  set (x := (100 * IZR k / IZR n)%R) in *. assert (X : (0 <= x <= 100)%R).
  { unfold x. split; [apply Rmult_le_pos; [lra|]; left; apply Rinv_0_lt_compat; exact Nr|]. apply Rmult_le_reg_r with (IZR n); [exact Nr|]. unfold Rdiv. rewrite Rmult_assoc, Rinv_l by lra. lra. }
  pose proof (rn_error x) as E. rewrite (Rabs_pos_eq x) in E by lra.
  assert (T2 : ten 2 = 100%R) by (unfold ten; cbn; lra). rewrite T2 in Near.
  assert (Sm : (bpow radix2 (-1075) <= bpow radix2 (-53))%R) by (apply bpow_le; lia).
  assert (E53 : (bpow radix2 (-53) * IZR n * 32768 <= 1)%R).
  { assert (Nb : (IZR n <= bpow radix2 38)%R) by (rewrite <- (IZR_Zpower radix2 38) by lia; apply IZR_le; apply N).
    assert (E' : (bpow radix2 (-53) * bpow radix2 38 * 32768 = 1)%R) by (rewrite <- bpow_plus; cbn; lra). pose proof (bpow_gt_0 radix2 (-53)). nra. }
  set (d := bpow radix2 (-53)) in *. assert (Dp : (0 < d)%R) by apply bpow_gt_0. set (y := rn x) in *. clearbody y d.
  assert (Er : (Rabs (IZR m - x * 100) <= / 2 + 10100 * d)%R).
  { replace (IZR m - x * 100)%R with ((IZR m - y * 100) + 100 * (y - x))%R by ring. eapply Rle_trans; [apply Rabs_triang|]. rewrite Rabs_mult, (Rabs_pos_eq 100) by lra.
    pose proof (Rmult_le_compat_l d x 100 ltac:(lra) ltac:(lra)). lra. }
  assert (Ex : (Rabs (IZR m - x * 100) * IZR n = IZR (Z.abs (m * n - 10000 * k)))%R).
  { rewrite abs_IZR, minus_IZR, !mult_IZR. rewrite <- (Rabs_pos_eq (IZR n)) at 1 by lra. rewrite <- Rabs_mult. f_equal. unfold x. field. lra. }
  assert (Fin : (IZR (2 * Z.abs (m * n - 10000 * k)) < IZR (n + 1))%R).
  { rewrite mult_IZR, plus_IZR, <- Ex. pose proof (Rmult_le_compat_r (IZR n) _ _ ltac:(lra) Er). nra. }
  apply lt_IZR in Fin. lia.
Qed.

Lemma share_nearest : forall k n m, 0 < n -> 2 * Z.abs (m * n - 10000 * k) <= n -> nearest_share k n m.
Proof.
  intros k n m N H m'. assert (Nr : (0 < IZR n)%R) by (apply IZR_lt; exact N).
  assert (D : forall j, Rabs (IZR j / 100 - 100 * IZR k / IZR n) = (IZR (Z.abs (j * n - 10000 * k)) * / (100 * IZR n))%R).
  { intros j. rewrite abs_IZR. rewrite <- (Rabs_pos_eq (/ (100 * IZR n))) by (left; apply Rinv_0_lt_compat; lra). rewrite <- Rabs_mult. f_equal. rewrite minus_IZR, !mult_IZR. field. lra. }
  rewrite !D. apply Rmult_le_compat_r; [left; apply Rinv_0_lt_compat; lra|]. apply IZR_le.
  destruct (Z.eq_dec m m') as [->|Q]; [lia|]. assert (n <= Z.abs (m' * n - m * n)) by (rewrite <- Z.mul_sub_distr_r, Z.abs_mul, (Z.abs_eq n) by lia; assert (1 <= Z.abs (m' - m)) by lia; nia). lia.
Qed.

Theorem line_main : forall {F : FloatOps} h es zs a, NoDup zs -> edges_in_zones h es zs -> zam_build h es zs = Ok a -> es <> [] -> Z.of_nat (List.length es) <= 2 ^ 38 ->
  exists b i c mb mi mc tb ti tc,
    counts (fun e => is_border h e = true) es b /\ counts (fun e => is_inner h e = Ok true) es i /\ counts (fun e => is_cross h e = Ok true) es c /\
    edges_statistics_string a = Ok (edges_line b i c tb ti tc) /\
    (two_places mb tb /\ two_places mi ti /\ two_places mc tc) /\
    (nearest_share (Z.of_nat b) (Z.of_nat (List.length es)) mb /\ nearest_share (Z.of_nat i) (Z.of_nat (List.length es)) mi /\ nearest_share (Z.of_nat c) (Z.of_nat (List.length es)) mc) /\
    9999 <= mb + mi + mc <= 10001.
Proof.
  intros F h es zs a Nd Ez Hz Ne Sz. destruct (statistics_main h es zs a Nd Ez Hz) as (b & i & c & Cb & Ci & Cc & Sum & St & _).
  destruct (St Ne) as (pb & pi & pc & E & _). assert (L : (0 < List.length es)%nat) by (destruct es; [congruence|cbn; lia]). set (n := List.length es) in *.
  destruct (share_main (Z.of_nat b) (Z.of_nat n) ltac:(lia) ltac:(lia)) as (mb & Tb & Nb & _).
  destruct (share_main (Z.of_nat i) (Z.of_nat n) ltac:(lia) ltac:(lia)) as (mi & Ti & Ni & _).
  destruct (share_main (Z.of_nat c) (Z.of_nat n) ltac:(lia) ltac:(lia)) as (mc & Tc & Nc & _).
  exists b, i, c, mb, mi, mc. eexists _, _, _. split; [exact Cb|]. split; [exact Ci|]. split; [exact Cc|].
  split; [unfold edges_statistics_string; rewrite E; reflexivity|]. split; [split; [exact Tb|split; [exact Ti|exact Tc]]|].
  split; [repeat split; apply share_nearest; lia|].
  assert (Sz' : Z.of_nat n = Z.of_nat b + Z.of_nat i + Z.of_nat c) by lia.
  set (s := mb + mi + mc). assert (K : 2 * Z.abs (s * Z.of_nat n - 10000 * Z.of_nat n) <= 3 * Z.of_nat n) by (unfold s; lia).
  assert (W : Z.abs (s * Z.of_nat n - 10000 * Z.of_nat n) = Z.abs (s - 10000) * Z.of_nat n) by (rewrite <- Z.mul_sub_distr_r, Z.abs_mul, (Z.abs_eq (Z.of_nat n)) by lia; reflexivity).
  rewrite W in K. assert (2 * Z.abs (s - 10000) <= 3) by nia. lia.
Qed.

Theorem line_empty : forall {F : FloatOps} h zs a, NoDup zs -> zam_build h [] zs = Ok a -> edges_statistics_string a = Raise EZeroDivisionError.
Proof.
  intros F h zs a Nd Hz. assert (Ez : edges_in_zones h [] zs) by (intros e []). destruct (statistics_main h [] zs a Nd Ez Hz) as (b & i & c & _ & _ & _ & _ & _ & K).
  unfold edges_statistics_string. rewrite (K eq_refl). reflexivity.
Qed.

(** All or none. *)
Theorem share_ends : forall n, 0 < n <= 2 ^ 38 -> write_hundredths (percentage 0 n) = lit "0.00" /\ write_hundredths (percentage n n) = lit "100.00".
Proof.
  intros n N. split.
  - destruct (percentage_main 0 n ltac:(lia) ltac:(lia)) as (F & R & Sg). destruct (write_hundredths_at _ F) as (m & M & W & P). rewrite Sg in *. cbn [zsigned] in P.
    assert (Z0 : (100 * 0 / IZR n = 0)%R) by (unfold Rdiv; rewrite Rmult_0_r, Rmult_0_l; reflexivity). rewrite Z0 in R. change (rounded 0) with (rn 0) in R.
    unfold rn in R. rewrite round_0 in R by apply valid_rnd_N. rewrite R in P. unfold places in P. rewrite Rmult_0_l in P. rewrite (near_even 0 0%R) in P; [|rewrite Rminus_0_r, Rabs_R0; lra|reflexivity].
    rewrite W, <- P. reflexivity.
  - assert (Nr : (0 < IZR n)%R) by (apply IZR_lt; lia).
    destruct (percentage_main n n ltac:(lia) ltac:(lia)) as (F & R & Sg). destruct (write_hundredths_at _ F) as (m & M & W & P). rewrite Sg in *. cbn [zsigned] in P.
    assert (Z0 : (100 * IZR n / IZR n = IZR 100)%R) by (field; lra). rewrite Z0 in R. change (rounded (IZR 100)) with (rn (IZR 100)) in R. rewrite (rn_id _ (fmt_int 100 ltac:(lia))) in R.
    rewrite R in P. unfold places in P. rewrite (near_even 10000) in P; [rewrite W, <- P; reflexivity| |reflexivity].
    unfold ten. rewrite <- (IZR_Zpower radix10 2) by lia. rewrite <- mult_IZR, <- minus_IZR. change (10000 - 100 * radix10 ^ 2) with 0. rewrite Rabs_R0. lra.
Qed.

Lemma hidden_main : exists k n, 0 < k < n /\ write_hundredths (percentage k n) = lit "0.00" /\ write_hundredths (percentage (n - k) n) = lit "100.00".
Proof. exists 1, 20001. split; [lia|]. split; vm_compute; reflexivity. Qed.
