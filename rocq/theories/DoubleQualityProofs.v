(** Proofs about the printed quality factors. *)

From Coq Require Import ZArith NArith Reals Lra Lia Ascii String Bool List Floats.SpecFloat.
From Flocq Require Import Core.Core IEEE754.BinarySingleNaN.
From Verif Require Import Py PyLemmas TextLemmas UtilsProofs Heap GridModel GridSpec Zam ZamSpec Info InfoSpec InfoProofs StoreSpec Double DoubleSpec DoubleProofs DoubleMore DoubleExport DoubleExportProofs
  DoubleGeomSpec DoubleGeom DoubleDist DoubleStats DoubleStatsSpec DoubleStatsProofs DoubleDistribProofs DoubleQuality DoubleQualitySpec.
Import ListNotations.
Open Scope list_scope.
Open Scope Z_scope.

Lemma thousandths_decimal : forall s m, 0 <= m -> decimal_text s m (-3) (thousandths_text s m).
Proof.
  intros s m M. assert (Pm : 0 <= m mod 10 ^ 3 < 10 ^ 3) by (apply Z.mod_pos_bound; lia). assert (Pq : 0 <= m / 10 ^ 3) by (apply Z.div_pos; lia).
  set (b := pad0 3 (N_str (Z.to_N (m mod 10 ^ 3)))).
  assert (L : List.length b = 3%nat) by (apply pad0_length, digits_length_le; [|lia]; change (N.of_nat 3) with 3%N; zify; lia).
  assert (V : digits_val b = m mod 10 ^ 3) by (apply pad_val; lia).
  assert (D : all_digits b = true) by apply pad_digits. assert (Da : all_digits (N_str (Z.to_N (m / 10 ^ 3))) = true) by apply all_digits_N_str.
  exists (sign_text s), (N_str (Z.to_N (m / 10 ^ 3))), (lit "."), b, [], 0. split; [unfold thousandths_text; fold b; rewrite app_nil_r; reflexivity|].
  split; [destruct s; [left; split; reflexivity|right; split; [left; reflexivity|reflexivity]]|].
  assert (Dd : forall l, all_digits l = true -> forallb is_digit l = true) by (intros [|c l] K; [discriminate K|exact K]).
  split; [rewrite forallb_app, (Dd _ Da), (Dd _ D); reflexivity|]. split; [intros K; apply app_eq_nil in K; destruct K as [_ K]; rewrite K in L; discriminate L|].
  split; [left; reflexivity|]. split; [left; split; reflexivity|]. split; [|rewrite L; reflexivity].
  unfold digits_val. rewrite fold_left_app, fold_digits. fold (digits_val (N_str (Z.to_N (m / 10 ^ 3)))). rewrite N_str_val, L, V, Z2N.id by lia.
  change (Z.of_nat 3) with 3. rewrite (Z.div_mod m (10 ^ 3)) at 1 by lia. lia.
Qed.

Lemma thousandths_three : forall m, 0 <= m -> three_places m (thousandths_text false m).
Proof.
  intros m M. split; [apply thousandths_decimal; exact M|]. unfold thousandths_text. cbn [sign_text app].
  assert (L : List.length (pad0 3 (N_str (Z.to_N (m mod 10 ^ 3)))) = 3%nat).
  { assert (Pm : 0 <= m mod 10 ^ 3 < 10 ^ 3) by (apply Z.mod_pos_bound; lia). apply pad0_length, digits_length_le; [|lia]; change (N.of_nat 3) with 3%N; zify; lia. }
  destruct (pad0 3 (N_str (Z.to_N (m mod 10 ^ 3)))) as [|b [|c [|d [|x l]]]]; try discriminate L.
  exists (N_str (Z.to_N (m / 10 ^ 3))), b, c, d. split; [reflexivity|]. pose proof (all_digits_N_str (Z.to_N (m / 10 ^ 3))) as A. intros K. rewrite K in A. discriminate A.
Qed.

(** The text of a double. *)
Lemma write_thousandths_at : forall x : double, is_finite x = true -> exists m, 0 <= m /\ write_thousandths x = thousandths_text (Bsign x) m /\ places 3 (B2R x) = zsigned (Bsign x) m.
Proof.
  intros x Fi. destruct x as [s|s| |s k e H]; try discriminate Fi.
  - exists 0. split; [lia|]. split; [reflexivity|]. cbn [Bsign B2R]. unfold places. rewrite Rmult_0_l. rewrite (near_even 0 0%R); [destruct s; reflexivity| |reflexivity].
    rewrite Rminus_0_r, Rabs_R0. lra.
  - cbn [Bsign write_thousandths] in *. destruct (fraction_ok k e) as (A & B & C). destruct (fraction k e) as [a b]. cbn [fst snd] in *.
    exists (round_div (a * 10 ^ 3) b). assert (R0 : 0 <= round_div (a * 10 ^ 3) b) by (apply round_div_ok; [apply Z.mul_nonneg_nonneg; lia|exact B]).
    split; [exact R0|]. split; [reflexivity|].
    destruct (round_div_ok (a * 10 ^ 3) b ltac:(apply Z.mul_nonneg_nonneg; lia) B) as (_ & R1 & R2). set (q := round_div (a * 10 ^ 3) b) in *. clearbody q.
    assert (Pb : (0 < IZR b)%R) by (apply IZR_lt; exact B).
    set (t := (B2R (B754_finite s k e H : double) * ten 3)%R).
    assert (T : t = signed s (IZR (a * 10 ^ 3) / IZR b)).
    { unfold t. rewrite finite_R, <- C, mult_IZR, p10_Z by lia. unfold ten. destruct s; cbn [signed]; field; lra. }
    assert (D : Rabs (IZR (zsigned s q) - t) = (IZR (Z.abs (q * b - a * 10 ^ 3)) / IZR b)%R).
    { rewrite T, zsigned_R. replace (signed s (IZR q) - signed s (IZR (a * 10 ^ 3) / IZR b))%R with (signed s (IZR (q * b - a * 10 ^ 3) / IZR b)).
      - replace (Rabs (signed s (IZR (q * b - a * 10 ^ 3) / IZR b))) with (Rabs (IZR (q * b - a * 10 ^ 3) / IZR b)) by (destruct s; cbn [signed]; [rewrite Rabs_Ropp|]; reflexivity).
        unfold Rdiv. rewrite Rabs_mult, Rabs_inv, (Rabs_pos_eq (IZR b)) by lra. rewrite abs_IZR. reflexivity.
      - rewrite minus_IZR, mult_IZR. destruct s; cbn [signed]; field; lra. }
    unfold places. fold t. apply near_even; rewrite D.
    + apply Rmult_le_reg_r with (IZR b); [exact Pb|]. unfold Rdiv. rewrite Rmult_assoc, Rinv_l by lra. apply IZR_le in R1. rewrite mult_IZR in R1. lra.
    + intros K. assert (K' : 2 * Z.abs (q * b - a * 10 ^ 3) = b).
      { apply eq_IZR. rewrite mult_IZR. apply (f_equal (fun u => u * IZR b)%R) in K. unfold Rdiv in K. rewrite Rmult_assoc, Rinv_l in K by lra. lra. }
      apply R2 in K'. destruct s; cbn [zsigned]; [rewrite Z.even_opp|]; exact K'.
Qed.


Lemma root_ok : forall x : double, is_finite x = true -> Bsign x = false -> is_finite (root x) = true /\ B2R (root x) = rn (sqrt (B2R x)) /\ Bsign (root x) = false.
Proof.
  intros x Fi Sg. pose proof (Bsqrt_correct 53 1024 prec53 prec_emax mode_NE x) as (A & B & C). fold (root x) in A, B, C.
  assert (Fr : is_finite (root x) = true) by (rewrite B; destruct x as [s|s| |s m e H]; cbn in *; try discriminate Fi; try reflexivity; rewrite Sg; reflexivity).
  split; [exact Fr|]. split; [exact A|]. rewrite C, Sg; [reflexivity|]. apply fin_notnan. exact Fr.
Qed.

(** An odd number of half thousandths is either the factor or far from it. *)
Lemma factor_apart : forall (fc U : Z) s e, 0 <= U -> (1 <= s)%R -> (s * s = IZR fc)%R -> (0 <= e <= / 1000)%R -> (e * IZR fc * 8010000 < 1)%R ->
  (Rabs (2000 * s - IZR U) <= 2000 * e * s)%R -> (2000 * s = IZR U)%R.
Proof.
  intros fc U s e HU Hs Sq He Hf H. assert (Ur : (0 <= IZR U)%R) by (apply IZR_le; exact HU).
  assert (Ub : (2000 * s + IZR U <= 4002 * s)%R) by (apply Rabs_le_inv in H; nra).
  assert (E : (Rabs (IZR (4000000 * fc - U * U)) < 1)%R).
  { rewrite minus_IZR, !mult_IZR, <- Sq. replace (4000000 * (s * s) - IZR U * IZR U)%R with ((2000 * s - IZR U) * (2000 * s + IZR U))%R by ring.
    rewrite Rabs_mult, (Rabs_pos_eq (2000 * s + IZR U)) by lra.
    apply Rle_lt_trans with (2000 * e * s * (4002 * s))%R; [apply Rmult_le_compat; [apply Rabs_pos|lra|exact H|exact Ub]|].
    replace (2000 * e * s * (4002 * s))%R with (8004000 * (e * (s * s)))%R by ring. rewrite Sq. assert (0 <= e * IZR fc)%R by (apply Rmult_le_pos; [lra|rewrite <- Sq; nra]). lra. }
  rewrite <- abs_IZR in E. apply lt_IZR in E. assert (Z : 4000000 * fc - U * U = 0) by lia. apply (f_equal IZR) in Z. rewrite minus_IZR, !mult_IZR, <- Sq in Z.
  assert (K : ((2000 * s - IZR U) * (2000 * s + IZR U) = 0)%R) by lra. apply Rmult_integral in K. lra.
Qed.

Lemma factor_error : forall s o y r d n, (1 <= s)%R -> (1 <= o)%R -> (0 < d <= / 10000)%R -> (0 <= n)%R -> (100 * o * n <= d * s)%R ->
  (Rabs (y - s) <= d * s + n)%R -> (0 <= y)%R -> (Rabs (r - y / o) <= d * (y / o) + n)%R -> (Rabs (r - s / o) <= 3 * d * (s / o))%R.
Proof.
  intros s o y r d n Hs Ho Hd Hn Hno Hy Y0 Hr. assert (Io : (0 < / o)%R) by (apply Rinv_0_lt_compat; lra).
  assert (N1 : (100 * n <= d * (s / o))%R).
  { apply Rmult_le_reg_r with o; [lra|]. replace (d * (s / o) * o)%R with (d * s)%R by (field; lra). lra. }
  assert (N2 : (100 * n <= d * s)%R) by nra.
  assert (Yo : (Rabs (y / o - s / o) <= (101 / 100) * (d * (s / o)))%R).
  { replace (y / o - s / o)%R with ((y - s) * / o)%R by (field; lra). rewrite Rabs_mult, (Rabs_pos_eq (/ o)) by lra.
    replace ((101 / 100) * (d * (s / o)))%R with ((101 / 100) * (d * s) * / o)%R by (field; lra). apply Rmult_le_compat_r; lra. }
  assert (P : (0 <= d * (s / o))%R) by lra.
  assert (Dy : (d * (y / o) <= (102 / 100) * (d * (s / o)))%R).
  { apply Rabs_le_inv in Yo. assert (Q : (y / o <= s / o + (101 / 100) * (d * (s / o)))%R) by lra. assert (Q2 : (d * (y / o) <= d * (s / o + (101 / 100) * (d * (s / o))))%R) by (apply Rmult_le_compat_l; lra).
    assert (d * (d * (s / o)) <= / 10000 * (d * (s / o)))%R by (apply Rmult_le_compat_r; lra). lra. }
  replace (r - s / o)%R with ((r - y / o) + (y / o - s / o))%R by ring. eapply Rle_trans; [apply Rabs_triang|]. lra.
Qed.

Theorem factor_main : forall fc oc, 0 < fc <= 2 ^ 28 -> 0 < oc <= 2 ^ 40 ->
  is_finite (zone_quality_factor fc oc) = true /\ exists m, 0 <= m /\ write_thousandths (zone_quality_factor fc oc) = thousandths_text false m /\
    places 3 (B2R (zone_quality_factor fc oc)) = m /\ (Rabs (IZR m - 1000 * (sqrt (IZR fc) / IZR oc)) <= / 2)%R.
Proof.
  intros fc oc Hf Ho. destruct (int_double fc ltac:(lia)) as (F1 & R1 & S1). destruct (int_double oc ltac:(lia)) as (F2 & R2 & S2). unfold zone_quality_factor.
  destruct (root_ok _ F1 S1) as (Fy & Ry & Sy). rewrite R1 in Ry. set (w := of_decimal false oc 0) in *. set (y := root (of_decimal false fc 0)) in *. clearbody w y.
  set (s := sqrt (IZR fc)) in *. set (o := IZR oc) in *.
  assert (Fr : (1 <= IZR fc <= 268435456)%R) by (split; apply IZR_le; lia). assert (Or : (1 <= o <= 1099511627776)%R) by (split; apply IZR_le; lia).
  assert (Sq : (s * s = IZR fc)%R) by (apply sqrt_sqrt; lra). assert (Sp : (0 <= s)%R) by apply sqrt_pos. assert (S1' : (1 <= s)%R) by nra. assert (Sb : (s <= 16384)%R) by nra.
  pose proof (rn_error s) as Ey. rewrite <- Ry, (Rabs_pos_eq s) in Ey by lra. assert (Y0 : (0 <= B2R y)%R) by (rewrite Ry; apply rn_nonneg; lra).
  set (d := bpow radix2 (-53)) in *. set (n := bpow radix2 (-1075)) in *. assert (Dp : (0 < d)%R) by apply bpow_gt_0. assert (Np : (0 < n)%R) by apply bpow_gt_0.
  assert (Ds : (d * 9007199254740992 = 1)%R).
  { replace 9007199254740992%R with (bpow radix2 53) by (rewrite <- (IZR_Zpower radix2 53) by lia; reflexivity). unfold d. rewrite <- bpow_plus. reflexivity. }
  assert (Nd : (n * 1180591620717411303424 <= d)%R).
  { replace 1180591620717411303424%R with (bpow radix2 70) by (rewrite <- (IZR_Zpower radix2 70) by lia; reflexivity). unfold n, d. rewrite <- bpow_plus. apply bpow_le. lia. }
  assert (Yb : (B2R y <= 32768)%R) by (apply Rabs_le_inv in Ey; nra). assert (Io : (0 < / o <= 1)%R) by (split; [apply Rinv_0_lt_compat; lra|rewrite <- Rinv_1; apply Rinv_le; lra]).
  assert (Bd : (Rabs (B2R y / B2R w) <= bpow radix2 15)%R).
  { rewrite R2. rewrite Rabs_pos_eq by (apply Rmult_le_pos; lra). replace (bpow radix2 15) with 32768%R by (rewrite <- (IZR_Zpower radix2 15) by lia; reflexivity). unfold Rdiv. nra. }
  destruct (divided_ok y w 15 Fy ltac:(rewrite R2; lra) ltac:(lia) Bd Sy S2) as (F & R & Sg). rewrite R2 in R. set (r := divided y w) in *. clearbody r.
  pose proof (rn_error (B2R y / o)) as Er. rewrite <- R, (Rabs_pos_eq (B2R y / o)) in Er by (apply Rmult_le_pos; lra). fold d n in Er.
  assert (E : (Rabs (B2R r - s / o) <= 3 * d * (s / o))%R).
  { apply (factor_error s o (B2R y) (B2R r) d n); try assumption; try lra. nra. }
  split; [exact F|]. destruct (write_thousandths_at r F) as (m & Pm & W & P). rewrite Sg in *. cbn [zsigned] in P. exists m. split; [exact Pm|]. split; [exact W|]. split; [exact P|].
  destruct (places_ok 3 r ltac:(lia) F) as (_ & _ & _ & _ & Near & _). rewrite P in Near. assert (T3 : ten 3 = 1000%R) by (unfold ten; cbn; lra). rewrite T3 in Near.
  set (q := (s / o)%R) in *. assert (Qo : (q * o = s)%R) by (unfold q; field; lra). assert (Q0 : (0 < q)%R) by (apply Rdiv_lt_0_compat; lra).
  assert (Far : forall t, 0 <= t -> (Rabs (2000 * q - IZR t) <= 2000 * (3 * d) * q)%R -> (2000 * q = IZR t)%R).
  { intros t Ht H. assert (K : (2000 * s = IZR (t * oc))%R).
    { apply (factor_apart fc (t * oc) s (3 * d)); try assumption; try nia; try lra.
      - assert (d * IZR fc <= d * 268435456)%R by (apply Rmult_le_compat_l; lra). lra.
      - rewrite mult_IZR. fold o. rewrite <- Qo. replace (2000 * (q * o) - IZR t * o)%R with ((2000 * q - IZR t) * o)%R by ring. rewrite Rabs_mult, (Rabs_pos_eq o) by lra.
        replace (2000 * (3 * d) * (q * o))%R with (2000 * (3 * d) * q * o)%R by ring. apply Rmult_le_compat_r; lra. }
    rewrite mult_IZR in K. fold o in K. rewrite <- Qo in K. apply Rmult_eq_reg_r with o; lra. }
  apply Rabs_le_inv in Near. apply Rabs_le_inv in E. apply Rabs_le. split; apply Rnot_lt_le; intros K.
  - (* the exact factor is above the middle *)
    assert (T : (2000 * q = IZR (2 * m + 1))%R) by (apply Far; [lia|]; rewrite plus_IZR, mult_IZR; apply Rabs_le; lra). rewrite plus_IZR, mult_IZR in T. lra.
  - assert (M1 : 0 < m) by (apply lt_IZR; lra).
    assert (T : (2000 * q = IZR (2 * m - 1))%R) by (apply Far; [lia|]; rewrite minus_IZR, mult_IZR; apply Rabs_le; lra). rewrite minus_IZR, mult_IZR in T. lra.
Qed.

Lemma half_nearest : forall m q, (Rabs (IZR m - 1000 * q) <= / 2)%R -> forall m', (Rabs (IZR m / 1000 - q) <= Rabs (IZR m' / 1000 - q))%R.
Proof.
  intros m q H m'. destruct (Z.eq_dec m m') as [->|N]; [lra|].
  assert (D : (1 <= Rabs (IZR m' - IZR m))%R) by (rewrite <- minus_IZR, <- abs_IZR; apply IZR_le; lia).
  assert (T : (Rabs (IZR m' - IZR m) <= Rabs (IZR m' - 1000 * q) + Rabs (IZR m - 1000 * q))%R).
  { replace (IZR m' - IZR m)%R with ((IZR m' - 1000 * q) - (IZR m - 1000 * q))%R by ring. eapply Rle_trans; [apply Rabs_triang|]. rewrite Rabs_Ropp. lra. }
  assert (C : forall j, Rabs (IZR j / 1000 - q) = (Rabs (IZR j - 1000 * q) * / 1000)%R).
  { intros j. rewrite <- (Rabs_pos_eq (/ 1000)) by lra. rewrite <- Rabs_mult. f_equal. field. }
  rewrite !C. apply Rmult_le_compat_r; lra.
Qed.

Lemma counts_le : forall A (P : A -> Prop) l k, counts P l k -> (k <= List.length l)%nat.
Proof. intros A P l k (l' & S & <-). clear - S. induction S; cbn; lia. Qed.
Lemma counts_pos : forall A (P : A -> Prop) l k x, counts P l k -> In x l -> P x -> (0 < k)%nat.
Proof.
  intros A P l k x (l' & S & <-) Hx Px. induction S as [|a l l' Pa S IH|a l l' Na S IH]; [destruct Hx|cbn; lia|].
  destruct Hx as [<-|Hx]; [exfalso; auto|]. exact (IH Hx).
Qed.

(** min and max of finite doubles. *)
Lemma fmin_ok : forall l x, is_finite x = true -> (forall y, In y l -> is_finite y = true) ->
  let m := fold_left (fun m y : double => if Bltb y m then y else m) l x in In m (x :: l) /\ forall y, In y (x :: l) -> (B2R m <= B2R y)%R.
Proof.
  induction l as [|a l IH]; intros x Fx Fl; cbv zeta; cbn [fold_left].
  - split; [left; reflexivity|]. intros y [<-|[]]. lra.
  - assert (Fa : is_finite a = true) by (apply Fl; left; reflexivity). pose proof (Bltb_correct 53 1024 a x Fa Fx) as B. change (Bltb a x) with (Bltb (prec := 53) (emax := 1024) a x). rewrite B. destruct (Rlt_bool_spec (B2R a) (B2R x)) as [K|K].
    + destruct (IH a Fa (fun y Hy => Fl y (or_intror Hy))) as [I U]. split; [right; exact I|]. intros y [<-|Hy]; [pose proof (U a (or_introl eq_refl)); cbv zeta in *; lra|exact (U y Hy)].
    + destruct (IH x Fx (fun y Hy => Fl y (or_intror Hy))) as [I U]. split; [destruct I as [I|I]; [left; exact I|right; right; exact I]|].
      intros y [<-|[<-|Hy]]; [exact (U x (or_introl eq_refl))|pose proof (U x (or_introl eq_refl)); cbv zeta in *; lra|exact (U y (or_intror Hy))].
Qed.
Lemma fmax_ok : forall l x, is_finite x = true -> (forall y, In y l -> is_finite y = true) ->
  let m := fold_left (fun m y : double => if Bltb m y then y else m) l x in In m (x :: l) /\ forall y, In y (x :: l) -> (B2R y <= B2R m)%R.
Proof.
  induction l as [|a l IH]; intros x Fx Fl; cbv zeta; cbn [fold_left].
  - split; [left; reflexivity|]. intros y [<-|[]]. lra.
  - assert (Fa : is_finite a = true) by (apply Fl; left; reflexivity). pose proof (Bltb_correct 53 1024 x a Fx Fa) as B. change (Bltb x a) with (Bltb (prec := 53) (emax := 1024) x a). rewrite B. destruct (Rlt_bool_spec (B2R x) (B2R a)) as [K|K].
    + destruct (IH a Fa (fun y Hy => Fl y (or_intror Hy))) as [I U]. split; [right; exact I|]. intros y [<-|Hy]; [pose proof (U a (or_introl eq_refl)); cbv zeta in *; lra|exact (U y Hy)].
    + destruct (IH x Fx (fun y Hy => Fl y (or_intror Hy))) as [I U]. split; [destruct I as [I|I]; [left; exact I|right; right; exact I]|].
      intros y [<-|[<-|Hy]]; [exact (U x (or_introl eq_refl))|pose proof (U x (or_introl eq_refl)); cbv zeta in *; lra|exact (U y (or_intror Hy))].
Qed.

Lemma places_le : forall x y, (x <= y)%R -> places 3 x <= places 3 y.
Proof. intros x y H. unfold places. destruct (valid_rnd_N (fun x => negb (Z.even x))) as [Le _]. apply Le. apply Rmult_le_compat_r; [unfold ten; cbn; lra|exact H]. Qed.

(** A zone without outer edges. *)
Lemma closed_factor : forall fc, 0 < fc < 2 ^ 53 -> write_thousandths (zone_quality_factor fc 0) = lit "inf".
Proof.
  intros fc Hf. destruct (int_double fc ltac:(lia)) as (F1 & R1 & S1). unfold zone_quality_factor. destruct (root_ok _ F1 S1) as (Fy & Ry & Sy). rewrite R1 in Ry.
  change (of_decimal false 0 0) with (B754_zero false : double). set (y := root (of_decimal false fc 0)) in *. clearbody y.
  assert (Y1 : (1 <= B2R y)%R).
  { rewrite Ry. change 1%R with (IZR 1). rewrite <- (rn_id (IZR 1) (fmt_int 1 ltac:(lia))). apply rn_le. rewrite <- sqrt_1. apply sqrt_le_1_alt. apply IZR_le. lia. }
  destruct y as [s|s| |s m e H]; cbn in Y1; try lra. cbn in Sy. subst s. reflexivity.
Qed.
Lemma empty_factor : write_thousandths (zone_quality_factor 0 0) = lit "nan".
Proof. reflexivity. Qed.

Lemma rmap_in : forall A B (f : A -> res B) l ys, rmap f l = Ok ys -> forall y, In y ys -> exists x, In x l /\ f x = Ok y.
Proof.
  intros A B f. induction l as [|a l IH]; intros ys E y Hy; cbn [rmap] in E; [injection E as <-; destruct Hy|].
  destruct (f a) as [b|e] eqn:Fa; [|discriminate E]. destruct (rmap f l) as [bs|e]; [|discriminate E]. injection E as <-. destruct Hy as [<-|Hy]; [exists a; cbn; auto|].
  destruct (IH bs eq_refl y Hy) as (x & Hx & Ex). exists x. cbn. auto.
Qed.
Lemma rmap_out : forall A B (f : A -> res B) l ys, rmap f l = Ok ys -> forall x, In x l -> exists y, In y ys /\ f x = Ok y.
Proof.
  intros A B f. induction l as [|a l IH]; intros ys E x Hx; cbn [rmap] in E; [destruct Hx|].
  destruct (f a) as [b|e] eqn:Fa; [|discriminate E]. destruct (rmap f l) as [bs|e]; [|discriminate E]. injection E as <-. destruct Hx as [<-|Hx]; [exists b; cbn; auto|].
  destruct (IH bs eq_refl x Hx) as (y & Hy & Ey). exists y. cbn. auto.
Qed.

Section Quality.
  Context {F : FloatOps}.

  Lemma outer_bound : forall h z oc, counts (fun e => ~ inside_zone h z e) (z_edges h z) oc -> (3 * zone_faces_count h z + oc = 2 * zone_edges_count h z)%nat -> (oc <= 3 * zone_faces_count h z)%nat.
  Proof. intros h z oc C E. apply counts_le in C. unfold zone_edges_count in E. lia. Qed.

  (** One zone. *)
  Lemma zone_factor : forall h z, grid_ok h -> zone_lists_ok h -> In z (g_zones h) -> z_faces h z <> [] -> Z.of_nat (List.length (z_faces h z)) <= 2 ^ 28 ->
    (exists e, In e (z_edges h z) /\ ~ inside_zone h z e) ->
    exists oc m, outer_edges_count h z = Ok oc /\ let q := zone_quality_factor (Z.of_nat (List.length (z_faces h z))) (Z.of_nat oc) in
      is_finite q = true /\ places 3 (B2R q) = m /\ shown_factor h z m (write_thousandths q).
  Proof.
    intros h z G L Hz Nf Lf (e & He & Oe). destruct (zone_counts h z G L Hz) as (oc & Eo & C & Eq). exists oc.
    pose proof (outer_bound h z oc C Eq) as Ob. unfold zone_faces_count in *. set (fc := List.length (z_faces h z)) in *.
    assert (Pf : (0 < fc)%nat) by (unfold fc; destruct (z_faces h z); [congruence|cbn; lia]).
    assert (Po : (0 < oc)%nat) by (exact (counts_pos _ _ _ _ e C He Oe)).
    destruct (factor_main (Z.of_nat fc) (Z.of_nat oc) ltac:(lia) ltac:(lia)) as (Fi & m & Pm & W & P & E). exists m. split; [exact Eo|]. cbv zeta. split; [exact Fi|]. split; [exact P|].
    exists oc. split; [exact C|]. split; [unfold quality_line, zone_line; rewrite Eo; reflexivity|]. split; [rewrite W; apply thousandths_three; exact Pm|].
    intros m'. rewrite <- !INR_IZR_INZ in E. apply half_nearest. exact E.
  Qed.

  Theorem zone_shown : forall h z, grid_ok h -> zone_lists_ok h -> In z (g_zones h) -> z_faces h z <> [] -> Z.of_nat (List.length (z_faces h z)) <= 2 ^ 28 ->
    (exists e, In e (z_edges h z) /\ ~ inside_zone h z e) -> exists m t, shown_factor h z m t.
  Proof. intros h z G L Hz Nf Lf O. destruct (zone_factor h z G L Hz Nf Lf O) as (oc & m & _ & _ & _ & S). eauto. Qed.

  Theorem zone_closed : forall h z, grid_ok h -> zone_lists_ok h -> In z (g_zones h) -> Z.of_nat (List.length (z_faces h z)) < 2 ^ 53 ->
    (forall e, In e (z_edges h z) -> inside_zone h z e) ->
    quality_line h z = Ok (factor_line (z_name h z) (List.length (z_faces h z)) 0 (match z_faces h z with [] => lit "nan" | _ => lit "inf" end)).
  Proof.
    intros h z G L Hz Lf O. destruct (zone_counts h z G L Hz) as (oc & Eo & C & _).
    assert (oc = 0)%nat. { destruct oc as [|oc]; [reflexivity|]. exfalso. destruct C as (l' & S & El). destruct l' as [|e l']; [discriminate El|].
      assert (K : forall l l2, sublist_of (fun e => ~ inside_zone h z e) l l2 -> forall e, In e l2 -> In e l /\ ~ inside_zone h z e).
      { induction 1 as [|a l l2 Pa S' IH|a l l2 Na S' IH]; intros x Hx; [destruct Hx| |]; [destruct Hx as [<-|Hx]; [split; [left; reflexivity|exact Pa]|]|];
          destruct (IH x Hx) as [A B]; (split; [right; exact A|exact B]). }
      destruct (K _ _ S e (or_introl eq_refl)) as [A B]. apply B. apply O. exact A. }
    subst oc. unfold quality_line, zone_line. rewrite Eo. cbn [rbind]. unfold factor_line, zone_faces_count. do 8 f_equal.
    destruct (z_faces h z) as [|f fs] eqn:Ef; [exact empty_factor|]. change (Z.of_nat 0) with 0. apply closed_factor. rewrite <- Ef in *. split; [rewrite Ef; cbn; lia|exact Lf].
  Qed.

  Theorem bounds_shown : forall h, grid_ok h -> zone_lists_ok h -> g_zones h <> [] ->
    (forall z, In z (g_zones h) -> z_faces h z <> [] /\ Z.of_nat (List.length (z_faces h z)) <= 2 ^ 28 /\ exists e, In e (z_edges h z) /\ ~ inside_zone h z e) ->
    exists lo hi ml mh tl th, In lo (g_zones h) /\ In hi (g_zones h) /\ shown_factor h lo ml tl /\ shown_factor h hi mh th /\ quality_bounds h = Ok (bounds_line tl th) /\
      forall z, In z (g_zones h) -> exists m t, shown_factor h z m t /\ ml <= m <= mh.
  Proof.
    intros h G L Nz A. destruct (lines_ok h G L) as (ls & E).
    set (qf := fun l : str * nat * nat => zone_quality_factor (Z.of_nat (snd (fst l))) (Z.of_nat (snd l))).
    assert (Q : forall l, In l ls -> exists z m, In z (g_zones h) /\ is_finite (qf l) = true /\ places 3 (B2R (qf l)) = m /\ shown_factor h z m (write_thousandths (qf l))).
    { intros l Hl. destruct (rmap_in _ _ _ _ _ E l Hl) as (z & Hz & El). destruct (A z Hz) as (N1 & N2 & N3). destruct (zone_factor h z G L Hz N1 N2 N3) as (oc & m & Eo & Fi & P & S).
      unfold zone_line in El. rewrite Eo in El. injection El as <-. exists z, m. auto. }
    assert (Q2 : forall z, In z (g_zones h) -> exists l m, In l ls /\ places 3 (B2R (qf l)) = m /\ shown_factor h z m (write_thousandths (qf l))).
    { intros z Hz. destruct (rmap_out _ _ _ _ _ E z Hz) as (l & Hl & El). destruct (A z Hz) as (N1 & N2 & N3). destruct (zone_factor h z G L Hz N1 N2 N3) as (oc & m & Eo & Fi & P & S).
      unfold zone_line in El. rewrite Eo in El. injection El as <-. exists (z_name h z, List.length (z_faces h z), oc), m. auto. }
    destruct ls as [|l0 ls]. { exfalso. destruct (g_zones h) as [|z zs] eqn:Ez; [congruence|]. destruct (Q2 z (or_introl eq_refl)) as (l & m & [] & _). }
    assert (F0 : is_finite (qf l0) = true) by (destruct (Q l0 (or_introl eq_refl)) as (z & m & _ & K & _); exact K).
    assert (Fl : forall y, In y (map qf ls) -> is_finite y = true).
    { intros y Hy. apply in_map_iff in Hy as (l & <- & Hl). destruct (Q l (or_intror Hl)) as (z & m & _ & K & _). exact K. }
    destruct (fmin_ok (map qf ls) (qf l0) F0 Fl) as [I1 U1]. destruct (fmax_ok (map qf ls) (qf l0) F0 Fl) as [I2 U2]. cbv zeta in *.
    assert (EqB : quality_bounds h = Ok (bounds_line (write_thousandths (fold_left (fun m y : double => if Bltb y m then y else m) (map qf ls) (qf l0)))
      (write_thousandths (fold_left (fun m y : double => if Bltb m y then y else m) (map qf ls) (qf l0))))) by (unfold quality_bounds; rewrite E; reflexivity).
    set (lo := fold_left (fun m y : double => if Bltb y m then y else m) (map qf ls) (qf l0)) in *. set (hi := fold_left (fun m y : double => if Bltb m y then y else m) (map qf ls) (qf l0)) in *. clearbody lo hi.
    change (qf l0 :: map qf ls) with (map qf (l0 :: ls)) in *. apply in_map_iff in I1 as (la & <- & Ha). apply in_map_iff in I2 as (lb & <- & Hb).
    destruct (Q la Ha) as (za & ma & Hza & _ & Pa & Sa). destruct (Q lb Hb) as (zb & mb & Hzb & _ & Pb & Sb).
    exists za, zb, ma, mb. do 2 eexists. do 2 (split; [assumption|]). split; [exact Sa|]. split; [exact Sb|]. split; [exact EqB|].
    intros z Hz. destruct (Q2 z Hz) as (l & m & Hl & P & S). exists m. eexists. split; [exact S|]. rewrite <- Pa, <- Pb, <- P.
    split; apply places_le; [apply U1|apply U2]; apply in_map; exact Hl.
  Qed.
End Quality.
