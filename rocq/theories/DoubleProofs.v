(** Proofs about the doubles: reading back what was written. *)

From Coq Require Import ZArith NArith Reals Lra Lia Ascii String Bool List Floats.SpecFloat.
From Flocq Require Import Core.Core Calc.Bracket Calc.Div IEEE754.BinarySingleNaN.
From Verif Require Import Py PyLemmas Utils UtilsSpec UtilsProofs Heap GridSpec StoreSpec Double DoubleSpec.
Import ListNotations.
Open Scope list_scope.
Open Scope Z_scope.

Notation fx := (SpecFloat.fexp 53 1024).

#[export] Instance fx_valid : Valid_exp fx := FLT_exp_valid (-1074) 53.
#[export] Instance fx_mono : Monotone_exp fx := FLT_exp_monotone (-1074) 53.

(** The real number nearest to [x] among those of the format, ties to even. *)
Definition rn (x : R) : R := round radix2 fx ZnearestE x.

Lemma of_spec_valid : forall z, valid_binary 53 1024 z = true -> B2SF (of_spec z) = z.
Proof.
  intros [s|s| |s m e] H; try reflexivity. unfold of_spec. cbn in H. destruct (bool_dec _ _) as [K|K]; [reflexivity|contradiction].
Qed.

Lemma of_spec_R : forall z, valid_binary 53 1024 z = true -> B2R (of_spec z) = SF2R radix2 z /\ is_finite (of_spec z) = is_finite_SF z /\ Bsign (of_spec z) = sign_SF z.
Proof.
  intros z H. pose proof (of_spec_valid z H) as E. split; [|split].
  - rewrite <- SF2R_B2SF, E. reflexivity.
  - rewrite <- is_finite_SF_B2SF, E. reflexivity.
  - rewrite <- E at 2. destruct (of_spec z); reflexivity.
Qed.

(** [nearest] gives the nearest double. *)
Lemma nearest_ok : forall s a b, (0 < a) -> (0 < b) -> let r := rn (IZR a / IZR b) in let z := nearest s a b in
  if Rlt_bool r (bpow radix2 1024) then B2R z = (if s then - r else r)%R /\ is_finite z = true /\ Bsign z = s else z = B754_infinity s.
Proof.
  intros s a b Ha Hb r z. unfold z, nearest. clear z.
  assert (Fa : F2R (Float radix2 a 0) = IZR a) by (unfold F2R; cbn; lra). assert (Fb : F2R (Float radix2 b 0) = IZR b) by (unfold F2R; cbn; lra).
  assert (Pa : (0 < IZR a)%R) by (apply IZR_lt; exact Ha). assert (Pb : (0 < IZR b)%R) by (apply IZR_lt; exact Hb).
  pose proof (Fdiv_correct fx (Float radix2 a 0) (Float radix2 b 0)) as Q. rewrite Fa, Fb in Q. specialize (Q Pa Pb).
  destruct (Fdiv fx (Float radix2 a 0) (Float radix2 b 0)) as [[q e] l]. destruct Q as [Q1 Q2].
  assert (Px : (0 < IZR a / IZR b)%R) by (apply Rdiv_lt_0_compat; assumption). set (x := (IZR a / IZR b)%R) in *.
  set (y := (if s then - x else x)%R).
  assert (Ey : Rabs y = x) by (unfold y; destruct s; [rewrite Rabs_Ropp|]; apply Rabs_pos_eq; lra).
  assert (Sy : Rlt_bool y 0 = s) by (unfold y; destruct s; [apply Rlt_bool_true|apply Rlt_bool_false]; lra).
  assert (Ny : (y <> 0)%R) by (unfold y; destruct s; lra).
  assert (Cy : cexp radix2 fx y = cexp radix2 fx x) by (unfold y; destruct s; [apply cexp_opp|reflexivity]).
  assert (Ry : round radix2 fx (round_mode mode_NE) y = (if s then - r else r)%R) by (unfold y, r, rn; destruct s; [exact (round_NE_opp radix2 fx x)|reflexivity]).
  assert (Rp : (0 <= r)%R) by (unfold r, rn; rewrite <- (round_0 radix2 fx ZnearestE); apply round_le; [apply fx_valid|apply valid_rnd_N|lra]).
  pose proof (binary_round_aux_correct' 53 1024 eq_refl eq_refl mode_NE y q e l Ny) as K. rewrite Ey, Cy, Sy, Ry in K. specialize (K Q2 Q1). cbv zeta in K.
  destruct K as [V K]. replace (Rabs (if s then - r else r)) with r in K by (destruct s; [rewrite Rabs_Ropp|]; symmetry; apply Rabs_pos_eq; exact Rp).
  destruct (Rlt_bool r (bpow radix2 1024)).
  - destruct (of_spec_R _ V) as (A & B & C). rewrite A, B, C. exact K.
  - rewrite K. reflexivity.
Qed.

(** [10 ^ k] as a real number. *)
Notation p10 k := (bpow radix10 k).

Lemma p10_Z : forall k, 0 <= k -> IZR (10 ^ k) = p10 k.
Proof. intros k H. exact (IZR_Zpower radix10 k H). Qed.

Lemma of_decimal_ok : forall s m k, 0 < m -> let r := rn (IZR m * p10 k) in let z := of_decimal s m k in
  if Rlt_bool r (bpow radix2 1024) then B2R z = (if s then - r else r)%R /\ is_finite z = true /\ Bsign z = s else z = B754_infinity s.
Proof.
  intros s m k Hm r z. unfold z, of_decimal. clear z. destruct (Z.eqb_spec m 0) as [E|_]; [lia|]. destruct (Z.leb_spec 0 k) as [H|H].
  - assert (P : 0 < m * 10 ^ k) by (apply Z.mul_pos_pos; [exact Hm|apply Z.pow_pos_nonneg; lia]).
    pose proof (nearest_ok s (m * 10 ^ k) 1 P eq_refl) as K. cbv zeta in K. replace (IZR (m * 10 ^ k) / 1)%R with (IZR m * p10 k)%R in K; [exact K|].
    rewrite mult_IZR, p10_Z by exact H. field.
  - assert (P : 0 < 10 ^ (- k)) by (apply Z.pow_pos_nonneg; lia).
    pose proof (nearest_ok s m (10 ^ (- k)) Hm P) as K. cbv zeta in K. replace (IZR m / IZR (10 ^ (- k)))%R with (IZR m * p10 k)%R in K; [exact K|].
    rewrite p10_Z by lia. rewrite bpow_opp. field. apply Rgt_not_eq, bpow_gt_0.
Qed.

Lemma of_decimal_notnan : forall s m k, 0 <= m -> is_nan (of_decimal s m k) = false.
Proof.
  intros s m k H. destruct (Z.eq_dec m 0) as [E|E]; [subst m; reflexivity|].
  pose proof (of_decimal_ok s m k ltac:(lia)) as K. cbv zeta in K. destruct (Rlt_bool _ _); [|rewrite K; reflexivity].
  destruct K as (_ & K & _). destruct (of_decimal s m k); try reflexivity. discriminate K.
Qed.

(* ------------------------------------------------------------------ *)
(** * Numbers of the format lie apart *)

Lemma fmt_multiple : forall x c, generic_format radix2 fx x -> c <= cexp radix2 fx x -> exists n, x = (IZR n * bpow radix2 c)%R.
Proof.
  intros x c G H. exists (Ztrunc (scaled_mantissa radix2 fx x) * 2 ^ (cexp radix2 fx x - c)). rewrite G at 1. unfold F2R. cbn [Fnum Fexp].
  rewrite mult_IZR. assert (P : IZR (2 ^ (cexp radix2 fx x - c)) = bpow radix2 (cexp radix2 fx x - c)) by (apply (IZR_Zpower radix2); lia).
  rewrite P, Rmult_assoc, <- bpow_plus. f_equal. f_equal. lia.
Qed.

Lemma near_round : forall x y, generic_format radix2 fx x -> (0 < x)%R -> (Rabs (y - x) <= x * bpow radix2 (-56))%R -> rn y = x.
Proof.
  intros x y Gx Px Hy. set (z := rn y). destruct (Req_dec z x) as [E|N]; [exact E|exfalso].
  assert (Gz : generic_format radix2 fx z) by (apply generic_format_round; [apply fx_valid|apply valid_rnd_N]).
  destruct (round_N_pt radix2 fx (fun n => negb (Z.even n)) y) as [_ Nz]. fold ZnearestE in Nz. change (round radix2 fx ZnearestE y) with z in Nz.
  specialize (Nz x Gx). rewrite (Rabs_minus_sym x y) in Nz. 
  assert (D : (Rabs (z - x) <= x * bpow radix2 (-55))%R).
  { replace (z - x)%R with ((z - y) + (y - x))%R by lra. eapply Rle_trans; [apply Rabs_triang|].
    change (-55) with (-56 + 1). rewrite bpow_plus. change (bpow radix2 1) with 2%R. lra. }
  assert (B55 : (bpow radix2 (-55) <= / 2)%R) by (change (/ 2)%R with (bpow radix2 (-1)); apply bpow_le; lia).
  assert (Pz : (x / 2 <= z)%R).
  { apply Rabs_le_inv in D. nra. }
  set (c := cexp radix2 fx x - 1).
  assert (Cz : c <= cexp radix2 fx z).
  { unfold c, cexp. assert (M : mag radix2 x - 1 <= mag radix2 z).
    { apply mag_ge_bpow. rewrite Rabs_pos_eq by lra. apply Rle_trans with (2 := Pz).
      pose proof (bpow_mag_le radix2 x ltac:(lra)) as K. rewrite Rabs_pos_eq in K by lra.
      replace (mag radix2 x - 1 - 1) with ((mag radix2 x - 1) + -1) by lia. rewrite bpow_plus. change (bpow radix2 (-1)) with (/ 2)%R. lra. }
    unfold SpecFloat.fexp. lia. }
  destruct (fmt_multiple x c Gx ltac:(unfold c; lia)) as (n & En). destruct (fmt_multiple z c Gz Cz) as (k & Ek).
  assert (Nk : k <> n) by (intros E; apply N; rewrite Ek, En, E; reflexivity).
  assert (L : (bpow radix2 c <= Rabs (z - x))%R).
  { rewrite Ek, En, <- Rmult_minus_distr_r, <- minus_IZR, Rabs_mult, <- abs_IZR, (Rabs_pos_eq (bpow radix2 c)) by apply bpow_ge_0.
    rewrite <- (Rmult_1_l (bpow radix2 c)) at 1. apply Rmult_le_compat_r; [apply bpow_ge_0|]. apply IZR_le. lia. }
  assert (U : (x * bpow radix2 (-55) < bpow radix2 c)%R).
  { apply Rlt_le_trans with (bpow radix2 (mag radix2 x) * bpow radix2 (-55))%R.
    - apply Rmult_lt_compat_r; [apply bpow_gt_0|]. pose proof (bpow_mag_gt radix2 x) as K. rewrite Rabs_pos_eq in K by lra. exact K.
    - rewrite <- bpow_plus. apply bpow_le. unfold c, cexp, SpecFloat.fexp. lia. }
  lra.
Qed.

(* ------------------------------------------------------------------ *)
(** * Digits *)

Lemma round_div_ok : forall a b, 0 <= a -> 0 < b -> let q := round_div a b in
  0 <= q /\ 2 * Z.abs (q * b - a) <= b /\ (2 * Z.abs (q * b - a) = b -> Z.even q = true).
Proof.
  intros a b Ha Hb. unfold round_div. pose proof (Z.div_mod a b ltac:(lia)) as E. pose proof (Z.mod_pos_bound a b Hb) as B. pose proof (Z.div_pos a b Ha Hb) as P.
  set (q := a / b) in *. set (r := a mod b) in *. cbv zeta.
  assert (A1 : q * b - a = - r) by lia. assert (A2 : (q + 1) * b - a = b - r) by lia.
  destruct (Z.compare_spec (2 * r) b) as [K|K|K].
  - destruct (Z.even q) eqn:Ev.
    + rewrite A1. split; [exact P|]. split; [lia|]. intros _. exact Ev.
    + rewrite A2. split; [lia|]. split; [lia|]. intros _. rewrite Z.add_1_r, Z.even_succ, <- Z.negb_even, Ev. reflexivity.
  - rewrite A1. split; [exact P|]. split; lia.
  - rewrite A2. split; [lia|]. split; lia.
Qed.

Lemma round_div_R : forall a b, 0 <= a -> 0 < b -> (Rabs (IZR (round_div a b) - IZR a / IZR b) <= / 2)%R.
Proof.
  intros a b Ha Hb. destruct (round_div_ok a b Ha Hb) as (_ & K & _). set (q := round_div a b) in *. clearbody q.
  assert (Pb : (0 < IZR b)%R) by (apply IZR_lt; exact Hb).
  replace (IZR q - IZR a / IZR b)%R with (IZR (q * b - a) / IZR b)%R by (rewrite minus_IZR, mult_IZR; field; lra).
  unfold Rdiv. rewrite Rabs_mult, Rabs_inv, (Rabs_pos_eq (IZR b)) by lra. rewrite <- abs_IZR.
  apply Rmult_le_reg_r with (IZR b); [exact Pb|]. rewrite Rmult_assoc, Rinv_l by lra. apply IZR_le in K. rewrite mult_IZR in K. lra.
Qed.

Lemma scale_ok : forall a b k, 0 < a -> 0 < b -> 0 < fst (scale a b k) /\ 0 < snd (scale a b k) /\
  (IZR (fst (scale a b k)) / IZR (snd (scale a b k)) = IZR a / IZR b * p10 (- k))%R.
Proof.
  intros a b k Ha Hb. unfold scale. cbn [fst snd].
  assert (P : forall n, 0 < 10 ^ Z.max 0 n) by (intros n; apply Z.pow_pos_nonneg; lia).
  split; [apply Z.mul_pos_pos; auto|]. split; [apply Z.mul_pos_pos; auto|].
  rewrite !mult_IZR, !p10_Z by lia. assert (Pb : (IZR b <> 0)%R) by (apply not_0_IZR; lia).
  destruct (Z.le_gt_cases 0 k) as [H|H].
  - rewrite (Z.max_l 0 (- k)), (Z.max_r 0 k) by lia. rewrite bpow_opp. cbn [bpow]. field. split; [apply Rgt_not_eq, bpow_gt_0|exact Pb].
  - rewrite (Z.max_r 0 (- k)), (Z.max_l 0 k) by lia. cbn [bpow]. field. exact Pb.
Qed.

Lemma digits_R : forall a, 0 < a -> (p10 (Zdigits radix10 a - 1) <= IZR a < p10 (Zdigits radix10 a))%R.
Proof.
  intros a Ha. pose proof (Zdigits_correct radix10 a) as [K1 K2]. rewrite Z.abs_eq in K1, K2 by lia. pose proof (Zdigits_gt_0 radix10 a ltac:(lia)) as G.
  split.
  - rewrite <- IZR_Zpower by lia. apply IZR_le. exact K1.
  - rewrite <- IZR_Zpower by lia. apply IZR_lt. exact K2.
Qed.

Lemma dec_exp_ok : forall a b, 0 < a -> 0 < b -> (p10 (dec_exp a b) <= IZR a / IZR b < p10 (dec_exp a b + 1))%R.
Proof.
  intros a b Ha Hb. unfold dec_exp. set (k := Zdigits radix10 a - Zdigits radix10 b).
  destruct (scale_ok a b k Ha Hb) as (S1 & S2 & S3). destruct (scale a b k) as [a' b']. cbn [fst snd] in *.
  destruct (digits_R a Ha) as [A1 A2]. destruct (digits_R b Hb) as [B1 B2].
  assert (Pb : (0 < IZR b)%R) by (apply IZR_lt; exact Hb). assert (Pb' : (0 < IZR b')%R) by (apply IZR_lt; exact S2).
  set (x := (IZR a / IZR b)%R) in *.
  assert (Ex : (IZR a = x * IZR b)%R) by (unfold x; field; lra). assert (Ex' : (IZR a' = x * p10 (- k) * IZR b')%R) by (rewrite <- S3; field; lra).
  assert (Px : (0 < x)%R) by (unfold x; apply Rdiv_lt_0_compat; [apply IZR_lt; exact Ha|exact Pb]).
  assert (U : (x < p10 (k + 1))%R).
  { apply Rmult_lt_reg_r with (p10 (Zdigits radix10 b - 1)); [apply bpow_gt_0|]. rewrite <- bpow_plus. replace (k + 1 + (Zdigits radix10 b - 1)) with (Zdigits radix10 a) by (unfold k; lia).
    apply Rle_lt_trans with (2 := A2). rewrite Ex. apply Rmult_le_compat_l; [lra|exact B1]. }
  assert (L : (p10 (k - 1) < x)%R).
  { apply Rmult_lt_reg_r with (p10 (Zdigits radix10 b)); [apply bpow_gt_0|]. rewrite <- bpow_plus. replace (k - 1 + Zdigits radix10 b) with (Zdigits radix10 a - 1) by (unfold k; lia).
    apply Rle_lt_trans with (1 := A1). rewrite Ex. apply Rmult_lt_compat_l; [exact Px|exact B2]. }
  assert (Q : (p10 (- k) * p10 k = 1)%R) by (rewrite <- bpow_plus; replace (- k + k) with 0 by lia; reflexivity).
  pose proof (bpow_gt_0 radix10 k) as Pk. pose proof (bpow_gt_0 radix10 (- k)) as Pk'.
  destruct (Z.leb_spec b' a') as [H|H].
  - split; [|exact U]. apply IZR_le in H. rewrite Ex' in H.
    assert (H' : (1 <= x * p10 (- k))%R) by (apply Rmult_le_reg_r with (IZR b'); [exact Pb'|lra]).
    replace x with (x * p10 (- k) * p10 k)%R by (rewrite Rmult_assoc, Q; ring). apply Rmult_le_compat_r with (r := p10 k) in H'; lra.
  - split; [lra|]. replace (k - 1 + 1) with k by lia. apply IZR_lt in H. rewrite Ex' in H.
    assert (H' : (x * p10 (- k) < 1)%R) by (apply Rmult_lt_reg_r with (IZR b'); [exact Pb'|lra]).
    replace x with (x * p10 (- k) * p10 k)%R by (rewrite Rmult_assoc, Q; ring). apply Rmult_lt_compat_r with (r := p10 k) in H'; lra.
Qed.

Lemma sci_ok : forall a b d k, 0 < a -> 0 < b -> sci a b = (d, k) ->
  10 ^ 18 <= d < 10 ^ 19 /\ (Rabs (IZR d * p10 (k - 18) - IZR a / IZR b) <= / 2 * p10 (k - 18))%R /\
  (Rabs (IZR d * p10 (k - 18) - IZR a / IZR b) <= IZR a / IZR b * bpow radix2 (-56))%R.
Proof.
  intros a b d k Ha Hb E. unfold sci in E. destruct (dec_exp_ok a b Ha Hb) as [D1 D2]. set (k0 := dec_exp a b) in *.
  destruct (scale_ok a b (k0 - 18) Ha Hb) as (S1 & S2 & S3). destruct (scale a b (k0 - 18)) as [a' b']. cbn [fst snd] in *.
  pose proof (round_div_R a' b' ltac:(lia) S2) as R1. set (d0 := round_div a' b') in *. clearbody d0. rewrite S3 in R1. set (x := (IZR a / IZR b)%R) in *.
  replace (- (k0 - 18)) with (18 - k0) in R1 by lia.
  assert (Q : (p10 (18 - k0) * p10 (k0 - 18) = 1)%R) by (rewrite <- bpow_plus; replace (18 - k0 + (k0 - 18)) with 0 by lia; reflexivity).
  pose proof (bpow_gt_0 radix10 (k0 - 18)) as P1. pose proof (bpow_gt_0 radix10 (18 - k0)) as P2.
  assert (R2 : (Rabs (IZR d0 * p10 (k0 - 18) - x) <= / 2 * p10 (k0 - 18))%R).
  { replace (IZR d0 * p10 (k0 - 18) - x)%R with ((IZR d0 - x * p10 (18 - k0)) * p10 (k0 - 18))%R by (rewrite Rmult_minus_distr_r, Rmult_assoc, Q; ring).
    rewrite Rabs_mult, (Rabs_pos_eq (p10 (k0 - 18))) by lra. apply Rmult_le_compat_r; lra. }
  assert (C : (/ 2 * p10 (k0 - 18) <= x * bpow radix2 (-56))%R).
  { apply Rle_trans with (p10 k0 * bpow radix2 (-56))%R; [|apply Rmult_le_compat_r; [apply bpow_ge_0|exact D1]].
    replace (k0 - 18) with (k0 + -18) by lia. rewrite bpow_plus. pose proof (bpow_gt_0 radix10 k0) as P3.
    assert (K : (/ 2 * p10 (-18) <= bpow radix2 (-56))%R).
    { change (p10 (-18)) with (/ IZR (10 ^ 18))%R. change (bpow radix2 (-56)) with (/ IZR (2 ^ 56))%R. rewrite <- Rinv_mult. rewrite <- mult_IZR. apply Rinv_le; [apply IZR_lt; reflexivity|]. apply IZR_le. vm_compute. discriminate. }
    nra. }
  assert (X1 : (p10 18 <= x * p10 (18 - k0))%R).
  { replace (p10 18) with (p10 k0 * p10 (18 - k0))%R by (rewrite <- bpow_plus; f_equal; lia). apply Rmult_le_compat_r; lra. }
  assert (X2 : (x * p10 (18 - k0) < p10 19)%R).
  { replace (p10 19) with (p10 (k0 + 1) * p10 (18 - k0))%R by (rewrite <- bpow_plus; f_equal; lia). apply Rmult_lt_compat_r; lra. }
  assert (T1 : 10 ^ 18 <= d0).
  { apply Z.lt_succ_r, lt_IZR. rewrite succ_IZR. rewrite p10_Z by lia. apply Rabs_le_inv in R1. lra. }
  assert (T2 : d0 <= 10 ^ 19).
  { apply Z.lt_succ_r, lt_IZR. rewrite succ_IZR, (p10_Z 19) by lia. apply Rabs_le_inv in R1. lra. }
  destruct (Z.eqb_spec d0 (10 ^ 19)) as [H|H]; pose proof (f_equal fst E) as E1; pose proof (f_equal snd E) as E2; cbn [fst snd] in E1, E2; clear E; subst d k.
  - split; [split; [lia|reflexivity]|].
    assert (V : (IZR (10 ^ 18) * p10 (k0 + 1 - 18) = IZR d0 * p10 (k0 - 18))%R).
    { rewrite H, !p10_Z by lia. rewrite <- !bpow_plus. f_equal. lia. }
    rewrite V. split; [|lra]. apply Rle_trans with (1 := R2). apply Rmult_le_compat_l; [lra|]. apply bpow_le. lia.
  - split; [lia|]. split; [exact R2|]. apply Rle_trans with (1 := R2). exact C.
Qed.

(* ------------------------------------------------------------------ *)
(** * Reading *)

Lemma span_ok : forall a r, forallb is_digit a = true -> (forall c q, r = c :: q -> is_digit c = false) -> span_digits (a ++ r) = (a, r).
Proof.
  induction a as [|c a IH]; intros r H Hr.
  - cbn [app]. destruct r as [|c q]; [reflexivity|]. cbn [span_digits]. rewrite (Hr c q eq_refl). reflexivity.
  - cbn [forallb] in H. apply andb_prop in H as [H1 H2]. cbn [app span_digits]. rewrite H1, (IH r H2 Hr). reflexivity.
Qed.

Lemma read_exp_ok : forall e t, exponent_text e t -> read_exp t = Some e /\ (forall c q, t = c :: q -> is_digit c = false /\ Ascii.eqb c "."%char = false).
Proof.
  intros e t [[E1 E2]|(l & sg & ds & Et & Hl & Hd & Hs)].
  - subst t e. split; [reflexivity|]. intros c q K. discriminate K.
  - destruct ds as [|d ds]; [discriminate Hd|]. assert (Dd : is_digit d = true) by (cbn in Hd; apply andb_prop in Hd as [A _]; exact A).
    assert (Nd : Ascii.eqb d "-"%char = false /\ Ascii.eqb d "+"%char = false).
    { split; apply Ascii.eqb_neq; intros K; subst d; vm_compute in Dd; discriminate Dd. }
    destruct Nd as [N1 N2]. split.
    + destruct Hl as [Hl|Hl], Hs as [[S1 S2]|[[S1|S1] S2]]; subst l sg t e; cbn [lit app list_ascii_of_string read_exp]; rewrite ?N1, ?N2, ?Hd; try reflexivity.
      all: change (Ascii.eqb "e" "e" || Ascii.eqb "e" "E")%bool with true; change (Ascii.eqb "E" "e" || Ascii.eqb "E" "E")%bool with true; cbn iota; rewrite ?N1, ?N2, ?Hd; reflexivity.
    + intros c q K. destruct Hl as [Hl|Hl]; subst l t; cbn in K; injection K as K _; subst c; split; reflexivity.
Qed.

Lemma read_unsigned_ok : forall s a pt b ex e, forallb is_digit (a ++ b) = true -> a ++ b <> [] -> (pt = lit "." \/ pt = [] /\ b = []) -> exponent_text e ex ->
  read_unsigned s (a ++ pt ++ b ++ ex) = Some (of_decimal s (digits_val (a ++ b)) (e - Z.of_nat (List.length b))).
Proof.
  intros s a pt b ex e D N Hp He. destruct (read_exp_ok e ex He) as [E1 E2]. unfold read_unsigned.
  rewrite forallb_app in D. apply andb_prop in D as [Da Db].
  assert (I : str_eqb (a ++ pt ++ b ++ ex) (lit "inf") = false).
  { destruct (str_eqb _ _) eqn:K; [|reflexivity]. apply str_eqb_eq in K. exfalso. destruct a as [|c a].
    - destruct Hp as [Hp|[Hp Hb]]; [|subst b; apply N; reflexivity]. subst pt. discriminate K.
    - cbn in K. injection K as K _. subst c. discriminate Da. }
  rewrite I. unfold read_number. destruct Hp as [Hp|[Hp Hb]].
  - subst pt. rewrite (span_ok a (lit "." ++ b ++ ex) Da) by (intros c q K; cbn in K; injection K as K _; subst c; reflexivity).
    cbn [lit list_ascii_of_string app]. change (Ascii.eqb "." ".") with true. cbn iota.
    rewrite (span_ok b ex Db) by (intros c q K; apply (E2 c q K)). rewrite E1. destruct (a ++ b) eqn:Q; [contradiction|reflexivity].
  - subst pt b. cbn [app]. rewrite app_nil_r in N |- *. rewrite (span_ok a ex Da) by (intros c q K; apply (E2 c q K)).
    assert (M : match ex with [] => (@nil ascii, ex) | c :: r1 => if Ascii.eqb c "." then span_digits r1 else ([], ex) end = ([], ex)).
    { destruct ex as [|c q]; [reflexivity|]. rewrite (proj2 (E2 c q eq_refl)). reflexivity. }
    rewrite M. rewrite app_nil_r, E1. destruct a; [contradiction|reflexivity].
Qed.

Lemma digit_space : forall c, is_digit c = true -> is_space c = false /\ Ascii.eqb c "-"%char = false /\ Ascii.eqb c "+"%char = false.
Proof.
  intros c H. split; [|split; apply Ascii.eqb_neq; intros K; subst c; discriminate H].
  destruct c as [[|] [|] [|] [|] [|] [|] [|] [|]]; vm_compute in H |- *; congruence.
Qed.

Lemma decimal_plain : forall neg m k t, decimal_text neg m k t -> t <> [] /\ forall c, In c t -> is_space c = false.
Proof.
  intros neg m k t (sg & a & pt & b & ex & e & Et & Hs & D & N & Hp & He & _). rewrite forallb_app in D. apply andb_prop in D as [Da Db].
  rewrite forallb_forall in Da, Db. split.
  - intros K. rewrite Et in K. apply app_eq_nil in K as [_ K]. apply app_eq_nil in K as [K1 K]. apply app_eq_nil in K as [_ K]. apply app_eq_nil in K as [K2 _]. apply N. rewrite K1, K2. reflexivity.
  - intros c I. rewrite Et in I. apply in_app_iff in I as [I|I].
    { destruct Hs as [[E _]|[[E|E] _]]; subst sg; cbn in I; [destruct I as [I|[]]; subst c; reflexivity|destruct I|destruct I as [I|[]]; subst c; reflexivity]. }
    apply in_app_iff in I as [I|I]; [apply digit_space; auto|]. apply in_app_iff in I as [I|I].
    { destruct Hp as [E|[E _]]; subst pt; cbn in I; [destruct I as [I|[]]; subst c; reflexivity|destruct I]. }
    apply in_app_iff in I as [I|I]; [apply digit_space; auto|].
    destruct He as [[E _]|(l & sg' & ds & E & Hl & Hd & Hs')]; subst ex; [destruct I|].
    assert (Hf : forallb is_digit ds = true) by (destruct ds; [reflexivity|exact Hd]). rewrite forallb_forall in Hf.
    apply in_app_iff in I as [I|I]; [destruct Hl as [E|E]; subst l; destruct I as [I|[]]; subst c; reflexivity|].
    apply in_app_iff in I as [I|I]; [|apply digit_space; auto].
    destruct Hs' as [[E _]|[[E|E] _]]; subst sg'; cbn in I; [destruct I as [I|[]]; subst c; reflexivity|destruct I|destruct I as [I|[]]; subst c; reflexivity].
Qed.

Lemma read_decimal : forall neg m k t l r, decimal_text neg m k t -> forallb is_space l = true -> forallb is_space r = true -> read_double (l ++ t ++ r) = Some (of_decimal neg m k).
Proof.
  intros neg m k t l r H Hl Hr. destruct (decimal_plain neg m k t H) as [Nt St]. unfold read_double.
  rewrite strip_word; [|exact Hl|exact Hr|exact Nt|apply forallb_forall; intros c I; rewrite (St c I); reflexivity].
  destruct H as (sg & a & pt & b & ex & e & Et & Hs & D & N & Hp & He & Em & Ek). rewrite Em, Ek.
  pose proof (fun s => read_unsigned_ok s a pt b ex e D N Hp He) as Q.
  assert (Hd : exists c q, a ++ pt ++ b ++ ex = c :: q /\ Ascii.eqb c "-"%char = false /\ Ascii.eqb c "+"%char = false).
  { destruct a as [|c a].
    - destruct Hp as [Hp|[Hp Hb]]; [|subst b; exfalso; apply N; reflexivity]. subst pt. eexists _, _. split; [reflexivity|]. split; reflexivity.
    - exists c, (a ++ pt ++ b ++ ex). split; [reflexivity|]. cbn in D. apply andb_prop in D as [D _]. apply (digit_space c D). }
  destruct Hd as (c & q & E & N1 & N2). destruct Hs as [[S1 S2]|[[S1|S1] S2]]; subst sg neg t; cbn [lit list_ascii_of_string app].
  - change (Ascii.eqb "-" "-") with true. cbn iota. apply Q.
  - rewrite E. rewrite N1, N2. rewrite <- E. apply Q.
  - change (Ascii.eqb "+" "-") with false. change (Ascii.eqb "+" "+") with true. cbn iota. apply Q.
Qed.

Lemma digits_val_nonneg : forall s, forallb is_digit s = true -> 0 <= digits_val s.
Proof.
  intros s H. unfold digits_val. assert (K : forall acc, 0 <= acc -> 0 <= fold_left (fun acc c => acc * 10 + digit_val c) s acc); [|apply K; lia].
  induction s as [|c s IH]; intros acc Ha; [exact Ha|]. cbn [forallb] in H. apply andb_prop in H as [H1 H2]. cbn [fold_left]. apply IH; [exact H2|].
  unfold is_digit, digit_val in *. apply andb_prop in H1 as [A _]. apply Nat.leb_le in A. lia.
Qed.

Lemma decimal_nearest : forall neg m k, 0 <= m -> nearest_double neg (IZR m * ten k) (of_decimal neg m k).
Proof.
  intros neg m k H. split; [|split].
  - intros K. apply Rmult_integral in K as [K|K]; [apply eq_IZR in K; subst m; reflexivity|]. pose proof (bpow_gt_0 radix10 k). unfold ten in K. lra.
  - intros P L. assert (Hm : 0 < m).
    { destruct (Z.eq_dec m 0) as [E|E]; [|lia]. subst m. rewrite Rmult_0_l in P. lra. }
    pose proof (of_decimal_ok neg m k Hm) as K. cbv zeta in K. change (rn (IZR m * p10 k)) with (rounded (IZR m * ten k)) in K.
    rewrite (Rlt_bool_true _ _ L) in K. destruct K as (A & B & C). auto.
  - intros P L. assert (Hm : 0 < m).
    { destruct (Z.eq_dec m 0) as [E|E]; [|lia]. subst m. rewrite Rmult_0_l in P. lra. }
    pose proof (of_decimal_ok neg m k Hm) as K. cbv zeta in K. change (rn (IZR m * p10 k)) with (rounded (IZR m * ten k)) in K.
    rewrite (Rlt_bool_false _ _ L) in K. exact K.
Qed.

(* ------------------------------------------------------------------ *)
(** * Writing *)

Lemma pad_len : forall n, 0 <= n < 10 ^ 19 -> List.length (pad0 19 (N_str (Z.to_N n))) = 19%nat.
Proof.
  intros n H. apply pad0_length. apply digits_length_le; [|lia]. change (N.of_nat 19) with 19%N. zify. lia.
Qed.

Lemma pad_val : forall w n, 0 <= n -> digits_val (pad0 w (N_str (Z.to_N n))) = n.
Proof. intros w n H. unfold pad0. rewrite digits_val_zeros, N_str_val. lia. Qed.

Lemma pad_digits : forall w n, all_digits (pad0 w (N_str n)) = true.
Proof. intros w n. apply pad0_all_digits, all_digits_N_str. Qed.

Lemma sci_text_ok : forall s d k, 0 <= d < 10 ^ 19 -> decimal_text s d (k - 18) (sign_text s ++ sci_text d k).
Proof.
  intros s d k H. pose proof (pad_len d H) as L. pose proof (pad_val 19 d ltac:(lia)) as V. pose proof (pad_digits 19 (Z.to_N d)) as D. unfold sci_text.
  destruct (pad0 19 (N_str (Z.to_N d))) as [|c r]; [discriminate L|]. cbn in L. injection L as L.
  exists (sign_text s), [c], (lit "."), r, (lit "e" ++ (if k <? 0 then lit "-" else lit "+") ++ pad0 2 (N_str (Z.to_N (Z.abs k)))), k.
  split; [reflexivity|]. split; [destruct s; [left; split; reflexivity|right; split; [left; reflexivity|reflexivity]]|].
  split; [exact D|]. split; [discriminate|]. split; [left; reflexivity|]. split.
  - right. exists (lit "e"), (if k <? 0 then lit "-" else lit "+"), (pad0 2 (N_str (Z.to_N (Z.abs k)))). split; [reflexivity|]. split; [left; reflexivity|]. split; [apply pad_digits|].
    pose proof (pad_val 2 (Z.abs k) ltac:(lia)) as W. destruct (Z.ltb_spec k 0) as [K|K]; [left|right]; (split; [try (right); reflexivity|]); rewrite W; lia.
  - split; [symmetry; exact V|]. rewrite L. reflexivity.
Qed.

Lemma fraction_ok : forall m e, 0 < fst (fraction m e) /\ 0 < snd (fraction m e) /\
  (IZR (fst (fraction m e)) / IZR (snd (fraction m e)) = IZR (Zpos m) * bpow radix2 e)%R.
Proof.
  intros m e. unfold fraction. cbn [fst snd]. assert (P : forall n, 0 < 2 ^ Z.max 0 n) by (intros n; apply Z.pow_pos_nonneg; lia).
  split; [apply Z.mul_pos_pos; [reflexivity|apply P]|]. split; [apply P|]. rewrite mult_IZR.
  assert (Q : forall n, 0 <= n -> IZR (2 ^ n) = bpow radix2 n) by (intros n Hn; apply (IZR_Zpower radix2); exact Hn).
  rewrite !Q by lia. destruct (Z.le_gt_cases 0 e) as [H|H].
  - rewrite (Z.max_r 0 e), (Z.max_l 0 (- e)) by lia. cbn [bpow]. field.
  - rewrite (Z.max_l 0 e), (Z.max_r 0 (- e)) by lia. rewrite bpow_opp. cbn [bpow]. field. apply Rgt_not_eq, bpow_gt_0.
Qed.

Lemma finite_R : forall s m e H, B2R (B754_finite s m e H : double) = signed s (IZR (Zpos m) * bpow radix2 e).
Proof. intros s m e H. cbn [B2R]. unfold F2R. cbn [Fnum Fexp]. destruct s; cbn [cond_Zopp signed]; [rewrite opp_IZR; ring|reflexivity]. Qed.

Lemma written : forall x : double, is_finite x = true -> exists m k, decimal_text (Bsign x) m k (write_double x) /\ 0 <= m /\
  ((B2R x <> 0)%R -> 10 ^ 18 <= m < 10 ^ 19) /\ (Rabs (signed (Bsign x) (IZR m * ten k) - B2R x) <= / 2 * ten k)%R /\
  of_decimal (Bsign x) m k = x.
Proof.
  intros [s|s| |s m e H] F; try discriminate F.
  - exists 0, (-18). cbn [Bsign write_double B2R]. split; [exact (sci_text_ok s 0 0 ltac:(lia))|]. split; [lia|]. split; [intros K; contradiction|].
    split; [|reflexivity]. unfold ten. pose proof (bpow_gt_0 radix10 (-18)). rewrite Rmult_0_l, Rminus_0_r. destruct s; cbn [signed]; rewrite ?Ropp_0, Rabs_R0; lra.
  - cbn [Bsign write_double]. destruct (fraction_ok m e) as (A & B & C). destruct (fraction m e) as [a b]. cbn [fst snd] in *.
    destruct (sci a b) as [d k] eqn:Es. destruct (sci_ok a b d k A B Es) as (S1 & S2 & S3). rewrite C in S2, S3.
    set (x := (IZR (Zpos m) * bpow radix2 e)%R) in *.
    assert (Px : (0 < x)%R) by (apply Rmult_lt_0_compat; [apply IZR_lt; reflexivity|apply bpow_gt_0]).
    exists d, (k - 18). split; [apply sci_text_ok; lia|]. split; [lia|]. split; [intros _; exact S1|]. rewrite finite_R. fold x. unfold ten. split.
    + replace (signed s (IZR d * p10 (k - 18)) - signed s x)%R with (signed s (IZR d * p10 (k - 18) - x)) by (destruct s; cbn [signed]; ring).
      destruct s; cbn [signed]; rewrite ?Rabs_Ropp; exact S2.
    + assert (Gx : generic_format radix2 fx x).
      { pose proof (generic_format_B2R 53 1024 (B754_finite false m e H)) as G. rewrite (finite_R false m e H) in G. exact G. }
      pose proof (near_round x _ Gx Px S3) as Rr.
      assert (Lx : (x < bpow radix2 1024)%R).
      { pose proof (abs_B2R_lt_emax 53 1024 (B754_finite false m e H)) as G. rewrite (finite_R false m e H) in G. cbn [signed] in G. fold x in G. rewrite Rabs_pos_eq in G by lra. exact G. }
      pose proof (of_decimal_ok s d (k - 18) ltac:(lia)) as K. cbv zeta in K. rewrite Rr, (Rlt_bool_true _ _ Lx) in K. destruct K as (K1 & K2 & K3).
      apply B2R_Bsign_inj; [exact K2|reflexivity| |exact K3]. rewrite K1, finite_R. reflexivity.
Qed.

Lemma num_same : forall (x : number), num (proj1_sig x) = x.
Proof.
  intros [x H]. unfold num. cbn [proj1_sig]. destruct (bool_dec (is_nan x) false) as [K|K]; [|contradiction]. f_equal. apply Eqdep_dec.UIP_dec. exact bool_dec.
Qed.

Theorem double_faithful : @faithful_numbers DoubleOps.
Proof.
  intros v. cbn [prs fmt DoubleOps]. destruct (is_finite (proj1_sig v)) eqn:Fi.
  - destruct (written (proj1_sig v) Fi) as (m & k & W & _ & _ & _ & E). destruct (decimal_plain _ _ _ _ W) as [N S].
    split; [|split; [exact N|exact S]]. pose proof (read_decimal _ _ _ _ [] [] W eq_refl eq_refl) as R. cbn [app] in R. rewrite app_nil_r in R.
    rewrite R, E, num_same. reflexivity.
  - destruct v as [x H]. cbn [proj1_sig] in *. destruct x as [s|s| |s m e B]; try discriminate Fi; [|discriminate H].
    assert (G : read_double (write_double (B754_infinity s)) = Some (B754_infinity s)) by (destruct s; reflexivity). rewrite G.
    split; [exact (f_equal Some (num_same (exist _ _ H)))|]. split; [destruct s; discriminate|]. intros c I. destruct s; cbn in I; repeat (destruct I as [I|I]; [subst c; reflexivity|]); destruct I.
Qed.
