(** Proofs about comparing and rounding doubles. *)

From Coq Require Import ZArith NArith Reals Lra Lia Ascii String Bool List Floats.SpecFloat.
From Flocq Require Import Core.Core Calc.Bracket Calc.Div IEEE754.BinarySingleNaN.
From Verif Require Import Py Heap GridModel GridSpec GridIO FileSpec StoreSpec LoadMain LoadProps Double DoubleSpec DoubleProofs.
Import ListNotations.
Open Scope list_scope.
Open Scope Z_scope.

(** A number with infinity outside of the others. *)
Definition key (x : double) : R :=
  match x with B754_infinity s => signed s (bpow radix2 1024) | _ => B2R x end.

Lemma ltb_key : forall x y : double, is_nan x = false -> is_nan y = false -> Bltb x y = Rlt_bool (key x) (key y).
Proof.
  intros x y Nx Ny. pose proof (abs_B2R_lt_emax 53 1024 x) as Ax. pose proof (abs_B2R_lt_emax 53 1024 y) as Ay.
  apply Rabs_def2 in Ax. apply Rabs_def2 in Ay. pose proof (bpow_gt_0 radix2 1024) as P.
  destruct (is_finite x) eqn:Fx, (is_finite y) eqn:Fy.
  - rewrite (Bltb_correct 53 1024 x y Fx Fy). destruct x, y; try discriminate; reflexivity.
  - destruct y as [s|s| |s m e H]; try discriminate. assert (K : key x = B2R x) by (destruct x; try discriminate; reflexivity). rewrite K. cbn [key].
    destruct s; cbn [signed].
    + rewrite Rlt_bool_false by lra. destruct x as [t|t| |t n k G]; try discriminate; destruct t; reflexivity.
    + rewrite Rlt_bool_true by lra. destruct x as [t|t| |t n k G]; try discriminate; destruct t; reflexivity.
  - destruct x as [s|s| |s m e H]; try discriminate. assert (K : key y = B2R y) by (destruct y; try discriminate; reflexivity). rewrite K. cbn [key].
    destruct s; cbn [signed].
    + rewrite Rlt_bool_true by lra. destruct y as [t|t| |t n k G]; try discriminate; destruct t; reflexivity.
    + rewrite Rlt_bool_false by lra. destruct y as [t|t| |t n k G]; try discriminate; destruct t; reflexivity.
  - destruct x as [s|s| |s m e H]; try discriminate. destruct y as [t|t| |t n k G]; try discriminate. cbn [key].
    destruct s, t; cbn [signed]; [rewrite Rlt_bool_false by lra|rewrite Rlt_bool_true by lra|rewrite Rlt_bool_false by lra|rewrite Rlt_bool_false by lra]; reflexivity.
Qed.

Lemma rlt_true : forall a b, Rlt_bool a b = true <-> (a < b)%R.
Proof. intros a b. destruct (Rlt_bool_spec a b); split; intros; try lra; try discriminate; reflexivity. Qed.

Theorem double_order : @order_ok DoubleOps.
Proof.
  constructor; cbn [vltb DoubleOps val].
  - intros [x H]. cbn [proj1_sig]. rewrite ltb_key by assumption. apply Rlt_bool_false. lra.
  - intros [x Hx] [y Hy] [z Hz]. cbn [proj1_sig]. rewrite !ltb_key by assumption. rewrite !rlt_true. lra.
  - intros [x Hx] [y Hy] [z Hz]. cbn [proj1_sig]. rewrite !ltb_key by assumption. rewrite !rlt_true. lra.
Qed.

(* ------------------------------------------------------------------ *)
(** * round(x, 10) *)

Lemma near_even : forall n t, (Rabs (IZR n - t) <= / 2)%R -> ((Rabs (IZR n - t) = / 2)%R -> Z.even n = true) -> ZnearestE t = n.
Proof.
  intros n t H He. destruct (Rlt_le_dec (Rabs (IZR n - t)) (/ 2)) as [L|L].
  - apply Znearest_imp. rewrite Rabs_minus_sym. exact L.
  - assert (E : Rabs (IZR n - t) = (/ 2)%R) by lra. specialize (He E).
    assert (C : (t = IZR n + / 2 \/ t = IZR n - / 2)%R) by (unfold Rabs in E; destruct (Rcase_abs (IZR n - t)); lra).
    destruct C as [C|C].
    + assert (Fl : Zfloor t = n) by (apply Zfloor_imp; rewrite plus_IZR; lra).
      unfold Znearest. rewrite Fl, Rcompare_Eq by lra. rewrite He. reflexivity.
    + assert (Fl : Zfloor t = n - 1) by (apply Zfloor_imp; rewrite minus_IZR, plus_IZR, minus_IZR; lra).
      unfold Znearest. rewrite Fl, Rcompare_Eq by (rewrite minus_IZR; lra).
      replace (n - 1) with (Z.pred n) by lia. rewrite Z.even_pred, <- Z.negb_even, He. cbn [negb]. apply Zceil_imp. rewrite minus_IZR. lra.
Qed.

Definition zsigned (s : bool) (m : Z) : Z := if s then - m else m.

Lemma zsigned_R : forall s m, IZR (zsigned s m) = signed s (IZR m).
Proof. intros [|] m; cbn [zsigned signed]; [apply opp_IZR|reflexivity]. Qed.




(** Rounding to [p] decimal places, as [round10]. *)
Definition round_at (p : Z) (x : double) : double :=
  match x with
  | B754_finite s m e _ => let '(a, b) := fraction m e in of_decimal s (round_div (a * 10 ^ p) b) (-p)
  | _ => x
  end.

Lemma places_ok : forall p (x : double), 0 <= p -> is_finite x = true -> exists m, 0 <= m /\ round_at p x = of_decimal (Bsign x) m (-p) /\ places p (B2R x) = zsigned (Bsign x) m /\
  (Rabs (IZR (places p (B2R x)) - B2R x * ten p) <= / 2)%R /\ ((Rabs (IZR (places p (B2R x)) - B2R x * ten p) = / 2)%R -> Z.even (places p (B2R x)) = true).
Proof.
  intros p [s|s| |s m e H] Pp Fi; try discriminate Fi.
  - exists 0. assert (U : places p (B2R (B754_zero s : double)) = zsigned s 0).
    { unfold places. cbn [B2R]. rewrite Rmult_0_l. rewrite (near_even 0 0%R); [destruct s; reflexivity| |reflexivity]. rewrite Rminus_0_r, Rabs_R0. lra. }
    split; [lia|]. split; [reflexivity|]. split; [exact U|]. rewrite U. cbn [B2R]. rewrite Rmult_0_l, Rminus_0_r. replace (zsigned s 0) with 0 by (destruct s; reflexivity).
    split; [rewrite Rabs_R0; lra|reflexivity].
  - cbn [round_at Bsign]. destruct (fraction_ok m e) as (A & B & C). destruct (fraction m e) as [a b]. cbn [fst snd] in *.
    assert (Pa : 0 <= a * 10 ^ p) by (apply Z.mul_nonneg_nonneg; lia).
    destruct (round_div_ok (a * 10 ^ p) b Pa B) as (R0 & R1 & R2). set (q := round_div (a * 10 ^ p) b) in *. clearbody q.
    exists q. split; [exact R0|]. split; [reflexivity|].
    assert (Pb : (0 < IZR b)%R) by (apply IZR_lt; exact B).
    set (t := (B2R (B754_finite s m e H : double) * ten p)%R).
    assert (T : t = signed s (IZR (a * 10 ^ p) / IZR b)).
    { unfold t. rewrite finite_R, <- C, mult_IZR, p10_Z by lia. unfold ten. destruct s; cbn [signed]; field; lra. }
    assert (D : Rabs (IZR (zsigned s q) - t) = (IZR (Z.abs (q * b - a * 10 ^ p)) / IZR b)%R).
    { rewrite T, zsigned_R. replace (signed s (IZR q) - signed s (IZR (a * 10 ^ p) / IZR b))%R with (signed s (IZR (q * b - a * 10 ^ p) / IZR b)).
      - replace (Rabs (signed s (IZR (q * b - a * 10 ^ p) / IZR b))) with (Rabs (IZR (q * b - a * 10 ^ p) / IZR b)) by (destruct s; cbn [signed]; [rewrite Rabs_Ropp|]; reflexivity).
        unfold Rdiv. rewrite Rabs_mult, Rabs_inv, (Rabs_pos_eq (IZR b)) by lra. rewrite abs_IZR. reflexivity.
      - rewrite minus_IZR, mult_IZR. destruct s; cbn [signed]; field; lra. }
    assert (D1 : (Rabs (IZR (zsigned s q) - t) <= / 2)%R).
    { rewrite D. apply Rmult_le_reg_r with (IZR b); [exact Pb|]. unfold Rdiv. rewrite Rmult_assoc, Rinv_l by lra. apply IZR_le in R1. rewrite mult_IZR in R1. lra. }
    assert (D2 : (Rabs (IZR (zsigned s q) - t) = / 2)%R -> Z.even (zsigned s q) = true).
    { intros K. rewrite D in K. assert (K' : 2 * Z.abs (q * b - a * 10 ^ p) = b).
      { apply eq_IZR. rewrite mult_IZR. apply (f_equal (fun u => u * IZR b)%R) in K. unfold Rdiv in K. rewrite Rmult_assoc, Rinv_l in K by lra. lra. }
      apply R2 in K'. destruct s; cbn [zsigned]; [rewrite Z.even_opp|]; exact K'. }
    assert (U : places p (B2R (B754_finite s m e H : double)) = zsigned s q) by (unfold places; fold t; apply near_even; assumption).
    split; [exact U|]. fold t. rewrite U. split; assumption.
Qed.

(** Rounding a finite number gives a finite number, not further from the multiple than the number itself. *)
Lemma round_at_near : forall p (x : double), 0 <= p -> is_finite x = true -> is_finite (round_at p x) = true /\
  (Rabs (IZR (places p (B2R x)) - B2R (round_at p x) * ten p) <= Rabs (IZR (places p (B2R x)) - B2R x * ten p))%R.
Proof.
  intros p x Pp Fi. destruct (places_ok p x Pp Fi) as (m & M0 & E & U & D1 & _). rewrite E. rewrite U in *.
  set (s := Bsign x) in *. set (X := B2R x) in *.
  assert (Gx : generic_format radix2 fx X) by apply generic_format_B2R.
  assert (T10 : (0 < ten p)%R) by apply bpow_gt_0. assert (Tm : (ten (-p) * ten p = 1)%R) by (unfold ten; rewrite <- bpow_plus; replace (- p + p) with 0 by lia; reflexivity).
  destruct (Z.eq_dec m 0) as [Z0m|Nm].
  { subst m. split; [reflexivity|]. cbn [of_decimal Z.eqb B2R]. rewrite Rmult_0_l, Rminus_0_r. replace (zsigned s 0) with 0 by (destruct s; reflexivity). rewrite Rabs_R0. apply Rabs_pos. }
  set (y := (IZR m * ten (-p))%R). set (sy := signed s y).
  assert (Py : (0 < y)%R) by (apply Rmult_lt_0_compat; [apply IZR_lt; lia|apply bpow_gt_0]).
  assert (Ey : (IZR (zsigned s m) = sy * ten p)%R).
  { rewrite zsigned_R. unfold sy, y. destruct s; cbn [signed]; rewrite ?Ropp_mult_distr_l_reverse, Rmult_assoc, Tm, Rmult_1_r; reflexivity. }
  pose proof (round_N_pt radix2 fx (fun n => negb (Z.even n)) sy) as [Gz Nz]. specialize (Nz X Gx). fold ZnearestE in Gz, Nz.
  set (z := round radix2 fx ZnearestE sy) in *.
  assert (Ez : z = signed s (rn y)).
  { unfold z, sy, rn. destruct s; cbn [signed]; [apply round_NE_opp|reflexivity]. }
  assert (Kz : (Rabs (IZR (zsigned s m) - z * ten p) <= Rabs (IZR (zsigned s m) - X * ten p))%R).
  { rewrite Ey, <- !Rmult_minus_distr_r, !Rabs_mult. apply Rmult_le_compat_r; [apply Rabs_pos|]. rewrite (Rabs_minus_sym sy z), (Rabs_minus_sym sy X). exact Nz. }
  assert (Lz : (rn y < bpow radix2 1024)%R).
  { pose proof (abs_B2R_le_emax_minus_prec 53 1024 eq_refl x) as Lx. fold X in Lx.
    assert (Dz : (Rabs (z - X) <= 1)%R).
    { replace (z - X)%R with ((z - sy) + (sy - X))%R by ring. eapply Rle_trans; [apply Rabs_triang|]. rewrite (Rabs_minus_sym sy X).
      assert (Q : (Rabs (X - sy) * ten p <= / 2)%R).
      { rewrite <- (Rabs_pos_eq (ten p)) by lra. rewrite <- Rabs_mult, Rmult_minus_distr_r, <- Ey, Rabs_minus_sym. exact D1. }
      assert (T1 : (1 <= ten p)%R) by (unfold ten; change 1%R with (bpow radix10 0); apply bpow_le; lia).
      pose proof (Rabs_pos (X - sy)). nra. }
    assert (Rz : Rabs z = rn y).
    { assert (0 <= rn y)%R by (unfold rn; rewrite <- (round_0 radix2 fx ZnearestE); apply round_le; [apply fx_valid|apply valid_rnd_N|lra]).
      rewrite Ez. destruct s; cbn [signed]; [rewrite Rabs_Ropp|]; apply Rabs_pos_eq; assumption. }
    rewrite <- Rz. assert (Rabs z <= Rabs (z - X) + Rabs X)%R by (replace z with ((z - X) + X)%R at 1 by ring; apply Rabs_triang).
    assert (1 < bpow radix2 (1024 - 53))%R by (change 1%R with (bpow radix2 0); apply bpow_lt; lia). lra. }
  pose proof (of_decimal_ok s m (-p) ltac:(lia)) as K. cbv zeta in K. change (IZR m * p10 (-p))%R with y in K. rewrite (Rlt_bool_true _ _ Lz) in K. destruct K as (K1 & K2 & _).
  split; [exact K2|]. rewrite K1. change (if s then (- rn y)%R else rn y) with (signed s (rn y)). rewrite <- Ez. exact Kz.
Qed.

Lemma units_ok : forall x : double, is_finite x = true -> exists m, 0 <= m /\ round10 x = of_decimal (Bsign x) m (-10) /\ units x = zsigned (Bsign x) m /\
  (Rabs (IZR (units x) - B2R x * ten 10) <= / 2)%R /\ ((Rabs (IZR (units x) - B2R x * ten 10) = / 2)%R -> Z.even (units x) = true).
Proof. exact (fun x => places_ok 10 x ltac:(lia)). Qed.

Lemma round10_near : forall x : double, is_finite x = true -> is_finite (round10 x) = true /\
  (Rabs (IZR (units x) - B2R (round10 x) * ten 10) <= Rabs (IZR (units x) - B2R x * ten 10))%R.
Proof. exact (fun x => round_at_near 10 x ltac:(lia)). Qed.

Lemma up_to_eq_R : forall x : double, SF2R radix2 (up_to_eq x) = B2R x.
Proof. intros [s|s| |s m e H]; reflexivity. Qed.

(** Two finite numbers are the same after rounding exactly if the nearest multiples are the same. *)
Theorem round_iff : forall x y : double, is_finite x = true -> is_finite y = true ->
  (up_to_eq (round10 x) = up_to_eq (round10 y) <-> units x = units y).
Proof.
  intros x y Fx Fy. destruct (units_ok x Fx) as (m & M0 & Em & Um & Dm & Tm). destruct (units_ok y Fy) as (n & N0 & En & Un & Dn & Tn). split; intros E.
  - destruct (round10_near x Fx) as [_ Kx]. destruct (round10_near y Fy) as [_ Ky].
    assert (Ez : B2R (round10 x) = B2R (round10 y)) by (rewrite <- !up_to_eq_R, E; reflexivity). rewrite <- Ez in Ky. set (z := (B2R (round10 x) * ten 10)%R) in *.
    destruct (Z.eq_dec (units x) (units y)) as [K|K]; [exact K|exfalso].
    assert (L : (1 <= Rabs (IZR (units x) - IZR (units y)))%R) by (rewrite <- minus_IZR, <- abs_IZR; apply IZR_le; lia).
    assert (T : (Rabs (IZR (units x) - IZR (units y)) <= Rabs (IZR (units x) - z) + Rabs (IZR (units y) - z))%R).
    { replace (IZR (units x) - IZR (units y))%R with ((IZR (units x) - z) + - (IZR (units y) - z))%R by ring. eapply Rle_trans; [apply Rabs_triang|]. rewrite Rabs_Ropp. lra. }
    assert (Hx : Z.even (units x) = true) by (apply Tm; lra). assert (Hy : Z.even (units y) = true) by (apply Tn; lra).
    assert (O : (Rabs (IZR (units x) - IZR (units y)) = 1)%R) by lra. rewrite <- minus_IZR, <- abs_IZR in O. apply eq_IZR in O.
    assert (Ev : Z.even (units x - units y) = true) by (rewrite Z.even_sub, Hx, Hy; reflexivity). assert (C : units x - units y = 1 \/ units x - units y = -1) by lia. destruct C as [C|C]; rewrite C in Ev; discriminate Ev.
  - rewrite Em, En. rewrite Um, Un in E. destruct (Z.eq_dec m 0) as [K|K].
    + subst m. assert (n = 0) by (destruct (Bsign x), (Bsign y); cbn [zsigned] in E; lia). subst n. destruct (Bsign x), (Bsign y); reflexivity.
    + assert (n = m /\ Bsign y = Bsign x) as [E1 E2] by (destruct (Bsign x), (Bsign y); cbn [zsigned] in E; split; try reflexivity; lia). rewrite E1, E2. reflexivity.
Qed.

(** Rounding again changes nothing. *)
Theorem round_again : forall x : double, is_finite x = true -> units (round10 x) = units x.
Proof.
  intros x Fx. destruct (units_ok x Fx) as (m & _ & _ & _ & D & T). destruct (round10_near x Fx) as [_ K]. unfold units at 1. apply near_even; [lra|]. intros E. apply T. lra.
Qed.

(** A decimal notation is read as the nearest double. *)
Theorem read_nearest : forall neg m k t l r, decimal_text neg m k t -> forallb is_space l = true -> forallb is_space r = true ->
  exists v : number, @prs DoubleOps (l ++ t ++ r) = Some v /\ nearest_double neg (IZR m * ten k) (proj1_sig v).
Proof.
  intros neg m k t l r D L R. cbn [prs DoubleOps]. rewrite (read_decimal _ _ _ _ _ _ D L R).
  assert (M : 0 <= m).
  { destruct D as (sg & a & pt & b & ex & e & _ & _ & Dg & _ & _ & _ & Em & _). subst m. apply digits_val_nonneg. exact Dg. }
  exists (num (of_decimal neg m k)). split; [reflexivity|]. unfold num. destruct (bool_dec (is_nan (of_decimal neg m k)) false) as [K|K].
  - apply decimal_nearest. exact M.
  - destruct (K (of_decimal_notnan neg m k M)).
Qed.

Theorem written_number : forall v : number, is_finite (proj1_sig v) = true -> exists m k, decimal_text (Bsign (proj1_sig v)) m k (@fmt DoubleOps v) /\
  ((B2R (proj1_sig v) <> 0)%R -> 10 ^ 18 <= m < 10 ^ 19) /\ (Rabs (signed (Bsign (proj1_sig v)) (IZR m * ten k) - B2R (proj1_sig v)) <= / 2 * ten k)%R.
Proof. intros v Fi. destruct (written _ Fi) as (m & k & W & _ & A & B & _). exists m, k. auto. Qed.

Theorem rounding : forall x : double, is_finite x = true ->
  (Rabs (IZR (units x) - B2R x * ten 10) <= / 2)%R /\ is_finite (round10 x) = true /\ nearest_double (Bsign x) (IZR (Z.abs (units x)) * ten (-10)) (round10 x).
Proof.
  intros x Fi. destruct (units_ok x Fi) as (m & M0 & E & U & D & _). destruct (round10_near x Fi) as [Fr _]. split; [exact D|]. split; [exact Fr|].
  rewrite E, U. replace (Z.abs (zsigned (Bsign x) m)) with m by (destruct (Bsign x); cbn [zsigned]; lia). apply decimal_nearest. exact M0.
Qed.

Lemma units_within : forall x y : double, is_finite x = true -> is_finite y = true -> units x = units y -> (Rabs (B2R x - B2R y) <= ten (-10))%R.
Proof.
  intros x y Fx Fy E. destruct (rounding x Fx) as [Dx _]. destruct (rounding y Fy) as [Dy _]. rewrite E in Dx.
  assert (T10 : (0 < ten 10)%R) by apply bpow_gt_0. assert (Tm : (ten (-10) * ten 10 = 1)%R) by (unfold ten; rewrite <- bpow_plus; reflexivity).
  apply Rmult_le_reg_r with (ten 10); [exact T10|]. rewrite Tm, <- (Rabs_pos_eq (ten 10)) at 1 by lra. rewrite <- Rabs_mult, Rmult_minus_distr_r.
  replace (B2R x * ten 10 - B2R y * ten 10)%R with (- (IZR (units y) - B2R x * ten 10) + (IZR (units y) - B2R y * ten 10))%R by ring.
  eapply Rle_trans; [apply Rabs_triang|]. rewrite Rabs_Ropp. lra.
Qed.

(** Only a finite number is equal to a finite number after rounding. *)
Lemma round_finite : forall x y : double, up_to_eq (round10 x) = up_to_eq (round10 y) -> is_finite y = true -> is_finite x = true.
Proof.
  intros x y E Fy. destruct (round10_near y Fy) as [Fr _]. destruct x as [s|s| |s m e H]; try reflexivity; exfalso; cbn [round10 up_to_eq B2SF] in E;
  destruct (round10 y); cbn [up_to_eq B2SF is_finite] in *; discriminate.
Qed.

Lemma rnd_units : forall p q : @pt DoubleOps, finite_pt p -> (@rnd DoubleOps q = @rnd DoubleOps p <-> finite_pt q /\ same_units q p).
Proof.
  intros [[x y] z] [[x' y'] z'] (Fx & Fy & Fz). cbn [rnd rnd1 DoubleOps finite_pt same_units]. split.
  - intros E. injection E as E1 E2 E3. pose proof (round_finite _ _ E1 Fx) as G1. pose proof (round_finite _ _ E2 Fy) as G2. pose proof (round_finite _ _ E3 Fz) as G3.
    apply (round_iff _ _ G1 Fx) in E1. apply (round_iff _ _ G2 Fy) in E2. apply (round_iff _ _ G3 Fz) in E3. auto 6.
  - intros ((G1 & G2 & G3) & E1 & E2 & E3). apply (round_iff _ _ G1 Fx) in E1. apply (round_iff _ _ G2 Fy) in E2. apply (round_iff _ _ G3 Fz) in E3.
    rewrite E1, E2, E3. reflexivity.
Qed.

Lemma same_within : forall p q : @pt DoubleOps, finite_pt p -> finite_pt q -> same_units p q -> within (ten (-10)) p q.
Proof.
  intros [[x y] z] [[x' y'] z'] (A1 & A2 & A3) (B1 & B2 & B3) (E1 & E2 & E3). repeat split; apply units_within; assumption.
Qed.

(** Merging of nodes of a loaded file. *)
Theorem merging : forall text h h' evs j p, @load DoubleOps true text h = (Ok tt, h') -> @file_form DoubleOps [] (file_lines text) evs ->
  nth_error (all_pts (zones_of evs)) j = Some p -> finite_pt p ->
  exists n, In n (g_nodes h') /\ finite_pt (n_p h' n) /\ same_units (n_p h' n) p /\ within (ten (-10)) (n_p h' n) p /\
    (forall m, In m (g_nodes h') -> finite_pt (n_p h' m) -> same_units (n_p h' m) p -> m = n) /\
    exists i, (i <= j)%nat /\ nth_error (all_pts (zones_of evs)) i = Some (n_p h' n) /\
      forall k q, (k < i)%nat -> nth_error (all_pts (zones_of evs)) k = Some q -> finite_pt q -> ~ same_units q p.
Proof.
  intros text h h' evs j p L Fo J Fi. destruct (@load_representative_main DoubleOps _ _ _ _ _ _ L Fo J) as (n & In_n & Rn & U & i & q & Ij & Ni & Pn & Rq & Before).
  pose proof (proj1 (rnd_units p q Fi) Rq) as [Fq Sq]. rewrite <- Pn in *. exists n. split; [exact In_n|]. split; [exact Fq|]. split; [exact Sq|].
  split; [apply same_within; assumption|]. split.
  - intros m Im Fm Sm. apply U; [exact Im|]. destruct (@load_nodes_main DoubleOps _ _ _ _ _ L Fo) as (_ & Rc & _). rewrite (Rc m Im). apply (rnd_units p _ Fi). split; assumption.
  - exists i. split; [exact Ij|]. split; [exact Ni|]. intros k q' Lk Nk Fq' Sq'. apply (Before k q' Lk Nk). apply (rnd_units p q' Fi). split; assumption.
Qed.
