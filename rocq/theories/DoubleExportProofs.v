(** Proofs about the numbers written by the converter. *)

From Coq Require Import ZArith NArith Reals Lra Lia Ascii String Bool List Floats.SpecFloat.
From Flocq Require Import Core.Core IEEE754.BinarySingleNaN.
From Verif Require Import Py PyLemmas TextLemmas UtilsProofs Heap StoreSpec Double DoubleSpec DoubleProofs DoubleMore DoubleExport.
Import ListNotations.
Open Scope list_scope.
Open Scope Z_scope.

Lemma fold_digits : forall l acc, fold_left (fun acc c => acc * 10 + digit_val c) l acc = acc * 10 ^ Z.of_nat (List.length l) + digits_val l.
Proof.
  intros l. unfold digits_val. induction l as [|c l IH]; intros acc; cbn [fold_left List.length]; [cbn; lia|].
  rewrite IH, (IH (0 * 10 + digit_val c)). rewrite Nat2Z.inj_succ, Z.pow_succ_r by lia. ring.
Qed.

Lemma fixed_decimal : forall s m, 0 <= m -> decimal_text s m (-6) (fixed_text s m).
Proof.
  intros s m M. assert (Pm : 0 <= m mod 10 ^ 6 < 10 ^ 6) by (apply Z.mod_pos_bound; lia). assert (Pq : 0 <= m / 10 ^ 6) by (apply Z.div_pos; lia).
  set (b := pad0 6 (N_str (Z.to_N (m mod 10 ^ 6)))).
  assert (L : List.length b = 6%nat) by (apply pad0_length, digits_length_le; [|lia]; change (N.of_nat 6) with 6%N; zify; lia).
  assert (V : digits_val b = m mod 10 ^ 6) by (apply pad_val; lia).
  assert (D : all_digits b = true) by apply pad_digits. assert (Da : all_digits (N_str (Z.to_N (m / 10 ^ 6))) = true) by apply all_digits_N_str.
  exists (sign_text s), (N_str (Z.to_N (m / 10 ^ 6))), (lit "."), b, [], 0. split; [unfold fixed_text; fold b; rewrite app_nil_r; reflexivity|].
  split; [destruct s; [left; split; reflexivity|right; split; [left; reflexivity|reflexivity]]|].
  assert (Dd : forall l, all_digits l = true -> forallb is_digit l = true) by (intros [|c l] K; [discriminate K|exact K]).
  split; [rewrite forallb_app, (Dd _ Da), (Dd _ D); reflexivity|]. split; [intros K; apply app_eq_nil in K; destruct K as [_ K]; rewrite K in L; discriminate L|].
  split; [left; reflexivity|]. split; [left; split; reflexivity|]. split; [|rewrite L; reflexivity].
  unfold digits_val. rewrite fold_left_app, fold_digits. fold (digits_val (N_str (Z.to_N (m / 10 ^ 6)))). rewrite N_str_val, L, V, Z2N.id by lia.
  change (Z.of_nat 6) with 6. rewrite (Z.div_mod m (10 ^ 6)) at 1 by lia. lia.
Qed.

Lemma zero_finite : forall x : double, is_finite x = true -> Bsign x = true -> (B2R x <= 0)%R.
Proof.
  intros [s|s| |s m e H] F S; try discriminate F; cbn [Bsign] in S; subst s.
  - cbn [B2R]. lra.
  - rewrite finite_R. cbn [signed]. assert (0 < IZR (Zpos m) * bpow radix2 e)%R by (apply Rmult_lt_0_compat; [apply IZR_lt; reflexivity|apply bpow_gt_0]). lra.
Qed.

(** The text of a double. *)
Lemma write_fixed_at : forall x : double, is_finite x = true -> exists m, 0 <= m /\ write_fixed x = fixed_text (Bsign x) m /\ places 6 (B2R x) = zsigned (Bsign x) m /\
  round_at 6 x = of_decimal (Bsign x) m (-6).
Proof.
  intros x Fi. destruct (places_ok 6 x ltac:(lia) Fi) as (m & M & E & P & _ & _).
  destruct x as [s|s| |s k e H]; try discriminate Fi.
  - exists 0. split; [lia|]. split; [reflexivity|]. cbn [Bsign] in *. split; [|reflexivity]. rewrite P. destruct (Z.eq_dec m 0) as [->|N]; [reflexivity|]. exfalso.
    cbn [round_at] in E. pose proof (decimal_nearest s m (-6) M) as (_ & A & B).
    unfold places in P. cbn [B2R] in P. rewrite Rmult_0_l in P. rewrite (near_even 0 0%R) in P; [|rewrite Rminus_0_r, Rabs_R0; lra|reflexivity].
    destruct s; cbn [zsigned] in P; lia.
  - cbn [Bsign write_fixed round_at] in *. destruct (fraction_ok k e) as (A & B & C). destruct (fraction k e) as [a b]. cbn [fst snd] in *.
    exists (round_div (a * 10 ^ 6) b). assert (R0 : 0 <= round_div (a * 10 ^ 6) b) by (apply round_div_ok; [apply Z.mul_nonneg_nonneg; lia|exact B]).
    split; [exact R0|]. split; [reflexivity|]. split; [|reflexivity].
    (* the nearest multiple does not depend on how it is found *)
    clear E P M m. destruct (round_div_ok (a * 10 ^ 6) b ltac:(apply Z.mul_nonneg_nonneg; lia) B) as (_ & R1 & R2). set (q := round_div (a * 10 ^ 6) b) in *. clearbody q.
    assert (Pb : (0 < IZR b)%R) by (apply IZR_lt; exact B).
    set (t := (B2R (B754_finite s k e H : double) * ten 6)%R).
    assert (T : t = signed s (IZR (a * 10 ^ 6) / IZR b)).
    { unfold t. rewrite finite_R, <- C, mult_IZR, p10_Z by lia. unfold ten. destruct s; cbn [signed]; field; lra. }
    assert (D : Rabs (IZR (zsigned s q) - t) = (IZR (Z.abs (q * b - a * 10 ^ 6)) / IZR b)%R).
    { rewrite T, zsigned_R. replace (signed s (IZR q) - signed s (IZR (a * 10 ^ 6) / IZR b))%R with (signed s (IZR (q * b - a * 10 ^ 6) / IZR b)).
      - replace (Rabs (signed s (IZR (q * b - a * 10 ^ 6) / IZR b))) with (Rabs (IZR (q * b - a * 10 ^ 6) / IZR b)) by (destruct s; cbn [signed]; [rewrite Rabs_Ropp|]; reflexivity).
        unfold Rdiv. rewrite Rabs_mult, Rabs_inv, (Rabs_pos_eq (IZR b)) by lra. rewrite abs_IZR. reflexivity.
      - rewrite minus_IZR, mult_IZR. destruct s; cbn [signed]; field; lra. }
    unfold places. fold t. apply near_even; rewrite D.
    + apply Rmult_le_reg_r with (IZR b); [exact Pb|]. unfold Rdiv. rewrite Rmult_assoc, Rinv_l by lra. apply IZR_le in R1. rewrite mult_IZR in R1. lra.
    + intros K. assert (K' : 2 * Z.abs (q * b - a * 10 ^ 6) = b).
      { apply eq_IZR. rewrite mult_IZR. apply (f_equal (fun u => u * IZR b)%R) in K. unfold Rdiv in K. rewrite Rmult_assoc, Rinv_l in K by lra. lra. }
      apply R2 in K'. destruct s; cbn [zsigned]; [rewrite Z.even_opp|]; exact K'.
Qed.

Lemma zsigned_abs : forall s m, 0 <= m -> Z.abs (zsigned s m) = m.
Proof. intros [|] m H; cbn [zsigned]; lia. Qed.

(** A finite double: what is written, and what is read back. *)
Theorem export_double : forall v : number, is_finite (proj1_sig v) = true ->
  decimal_text (Bsign (proj1_sig v)) (Z.abs (places 6 (B2R (proj1_sig v)))) (-6) (write_fixed (proj1_sig v)) /\
  exists w : number, @prs DoubleOps (write_fixed (proj1_sig v)) = Some w /\ is_finite (proj1_sig w) = true /\
    nearest_double (Bsign (proj1_sig v)) (IZR (Z.abs (places 6 (B2R (proj1_sig v)))) * ten (-6)) (proj1_sig w) /\
    places 6 (B2R (proj1_sig w)) = places 6 (B2R (proj1_sig v)) /\ write_fixed (proj1_sig w) = write_fixed (proj1_sig v).
Proof.
  intros [x Nx] Fi. cbn [proj1_sig] in *. destruct (write_fixed_at x Fi) as (m & M & W & P & E). destruct (round_at_near 6 x ltac:(lia) Fi) as [Fr Near].
  assert (A : Z.abs (places 6 (B2R x)) = m) by (rewrite P; apply zsigned_abs; exact M). rewrite A, W. split; [apply fixed_decimal; exact M|].
  exists (num (of_decimal (Bsign x) m (-6))). cbn [prs DoubleOps].
  pose proof (read_decimal _ _ _ _ [] [] (fixed_decimal (Bsign x) m M) eq_refl eq_refl) as Rd. cbn [app] in Rd. rewrite app_nil_r in Rd. rewrite Rd.
  split; [reflexivity|]. assert (Nn : proj1_sig (num (of_decimal (Bsign x) m (-6))) = of_decimal (Bsign x) m (-6)).
  { unfold num. destruct (bool_dec (is_nan (of_decimal (Bsign x) m (-6))) false) as [K|K]; [reflexivity|destruct (K (of_decimal_notnan _ _ _ M))]. }
  rewrite Nn. set (w := of_decimal (Bsign x) m (-6)) in *. rewrite E in Fr, Near. split; [exact Fr|]. split; [apply decimal_nearest; exact M|].
  destruct (places_ok 6 x ltac:(lia) Fi) as (m' & _ & _ & _ & D & T).
  assert (Pw : places 6 (B2R w) = places 6 (B2R x)) by (unfold places at 1; apply near_even; [lra|intros K; apply T; lra]).
  split; [exact Pw|]. assert (Sw : Bsign w = Bsign x).
  { destruct (decimal_nearest (Bsign x) m (-6) M) as (Z1 & Z2 & Z3). fold w in Z1, Z2, Z3. destruct (Z.eq_dec m 0) as [K|K].
    - rewrite Z1; [reflexivity|]. rewrite K. ring.
    - assert (Pm : (0 < IZR m * ten (-6))%R) by (apply Rmult_lt_0_compat; [apply IZR_lt; lia|apply bpow_gt_0]).
      destruct (Rlt_le_dec (rounded (IZR m * ten (-6))) (bpow radix2 1024)) as [L|L]; [exact (proj2 (proj2 (Z2 Pm L)))|rewrite (Z3 Pm L); reflexivity]. }
  destruct (write_fixed_at w Fr) as (n & Nn' & Ww & Pn & _). rewrite Ww, Sw. f_equal. rewrite Sw in Pn. rewrite <- (zsigned_abs (Bsign x) n Nn'), <- Pn, Pw. exact A.
Qed.

(** A number below half a millionth is lost. *)
Lemma places_small : forall x, (Rabs x < / 2 * ten (-6))%R -> places 6 x = 0.
Proof.
  intros x H. unfold places. apply near_even; [|reflexivity]. assert (T : (0 < ten 6)%R) by apply bpow_gt_0.
  assert (Tm : (ten (-6) * ten 6 = 1)%R) by (unfold ten; rewrite <- bpow_plus; reflexivity).
  rewrite Rminus_0_l, Rabs_Ropp, Rabs_mult, (Rabs_pos_eq (ten 6)) by lra. apply Rlt_le. apply Rmult_lt_compat_r with (r := ten 6) in H; [|exact T]. rewrite Rmult_assoc, Tm, Rmult_1_r in H. exact H.
Qed.

Theorem export_small : forall v : number, is_finite (proj1_sig v) = true -> (Rabs (B2R (proj1_sig v)) < / 2 * ten (-6))%R ->
  exists w : number, @prs DoubleOps (write_fixed (proj1_sig v)) = Some w /\ proj1_sig w = B754_zero (Bsign (proj1_sig v)).
Proof.
  intros v Fi S. destruct (export_double v Fi) as (_ & w & Rd & _ & (Z1 & _) & _). exists w. split; [exact Rd|]. apply Z1. rewrite (places_small _ S). cbn [Z.abs]. lra.
Qed.

(* ------------------------------------------------------------------ *)
(** * Numbers of the exact model of the converter *)

Lemma real_text : forall x, decimal_text (Rlt_bool x 0) (Z.abs (places 6 x)) (-6) (fixed_real x).
Proof. intros x. apply fixed_decimal. lia. Qed.

Lemma real_word : forall x, word (fixed_real x).
Proof. intros x. exact (decimal_plain _ _ _ _ (real_text x)). Qed.

Lemma real_read : forall x, @prs DoubleOps (fixed_real x) = Some (read_real x).
Proof.
  intros x. cbn [prs DoubleOps]. pose proof (read_decimal _ _ _ _ [] [] (real_text x) eq_refl eq_refl) as Rd. cbn [app] in Rd. rewrite app_nil_r in Rd. rewrite Rd. reflexivity.
Qed.

Lemma real_proj : forall x, proj1_sig (read_real x) = of_decimal (Rlt_bool x 0) (Z.abs (places 6 x)) (-6).
Proof.
  intros x. unfold read_real. fold (ten 6). fold (places 6 x). unfold num. destruct (bool_dec (is_nan (of_decimal (Rlt_bool x 0) (Z.abs (places 6 x)) (-6))) false) as [K|K]; [reflexivity|].
  destruct (K (of_decimal_notnan _ _ _ (Z.abs_nonneg _))).
Qed.

Lemma real_nearest : forall x, nearest_double (Rlt_bool x 0) (IZR (Z.abs (places 6 x)) * ten (-6)) (proj1_sig (read_real x)).
Proof. intros x. rewrite real_proj. apply decimal_nearest. lia. Qed.

Lemma zero_near : ZnearestE 0 = 0.
Proof. apply near_even; [rewrite Rminus_0_r, Rabs_R0; lra|reflexivity]. Qed.

Lemma places_sign : forall p x, (0 <= x)%R -> 0 <= places p x.
Proof.
  intros p x H. unfold places. rewrite <- zero_near. apply (@Zrnd_le ZnearestE (valid_rnd_N _)). apply Rmult_le_pos; [exact H|apply bpow_ge_0].
Qed.

Lemma places_sign' : forall p x, (x <= 0)%R -> places p x <= 0.
Proof.
  intros p x H. unfold places. rewrite <- zero_near. apply (@Zrnd_le ZnearestE (valid_rnd_N _)). assert (0 <= ten p)%R by apply bpow_ge_0. nra.
Qed.

(** Numbers with the same nearest millionth are the same for the merging of nodes. *)
Theorem real_same : forall x y, places 6 x = places 6 y -> @rnd1 DoubleOps (read_real x) = @rnd1 DoubleOps (read_real y).
Proof.
  intros x y E. cbn [rnd1 DoubleOps]. rewrite !real_proj, <- E. destruct (Z.eq_dec (places 6 x) 0) as [K|K].
  - rewrite K. reflexivity.
  - assert (S : Rlt_bool x 0 = Rlt_bool y 0).
    { destruct (Rlt_bool_spec x 0) as [A|A], (Rlt_bool_spec y 0) as [B|B]; try reflexivity; exfalso.
      - pose proof (places_sign' 6 x ltac:(lra)). pose proof (places_sign 6 y B). lia.
      - pose proof (places_sign 6 x A). pose proof (places_sign' 6 y ltac:(lra)). lia. }
    rewrite S. reflexivity.
Qed.
