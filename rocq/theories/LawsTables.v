(** Proofs about the tables of phys/laws.py. *)

From Coq Require Import Reals ZArith Bool Lia Lra List.
From Verif Require Import Py PyLemmas Geom Laws LawsSpec LawsProofs.
Import ListNotations.
Open Scope list_scope.
Open Scope R_scope.

Lemma pow10 : forall k, 0 < 10 ^ k.
Proof. intros k. apply pow_lt. lra. Qed.

Lemma dec_lt : forall m n k, (m < n)%Z -> dec m k < dec n k.
Proof.
  intros m n k H. unfold dec, Rdiv. apply Rmult_lt_compat_r; [apply Rinv_0_lt_compat, pow10|]. apply IZR_lt. exact H.
Qed.
Lemma dec_le : forall m n k, (m <= n)%Z -> dec m k <= dec n k.
Proof.
  intros m n k H. unfold dec, Rdiv. apply Rmult_le_compat_r; [apply Rlt_le, Rinv_0_lt_compat, pow10|]. apply IZR_le. exact H.
Qed.

Lemma dec0 : forall m, dec m 0 = IZR m.
Proof. intros m. unfold dec. cbn [pow]. field. Qed.
Lemma dec1 : forall m, dec m 1 = IZR m / 10.
Proof. intros m. unfold dec. cbn [pow]. field. Qed.
Lemma dec2 : forall m, dec m 2 = IZR m / 100.
Proof. intros m. unfold dec. cbn [pow]. field. Qed.
Lemma dec3 : forall m, dec m 3 = IZR m / 1000.
Proof. intros m. unfold dec. cbn [pow]. field. Qed.
Lemma dec6 : forall m, dec m 6 = IZR m / 1000000.
Proof. intros m. unfold dec. cbn [pow]. field. Qed.

Fixpoint ascz (zs : list Z) : bool :=
  match zs with
  | [] => true
  | x :: r => match r with [] => true | y :: _ => Z.ltb x y && ascz r end
  end.

Lemma ascz_ok : forall zs k, ascz zs = true -> ascending (map (fun m => dec m k) zs).
Proof.
  intros zs k H. apply ascendingb_ok. induction zs as [|x zs IH]; [reflexivity|]. destruct zs as [|y zs]; [reflexivity|].
  cbn [ascz] in H. apply andb_true_iff in H as [H1 H2]. cbn [map ascendingb] in *. apply andb_true_iff. split; [|apply IH; exact H2].
  apply ltb_true, dec_lt. apply Z.ltb_lt. exact H1.
Qed.

Definition withinz (lo up : Z) (zs : list Z) : bool := forallb (fun m => Z.leb lo m && Z.leb m up) zs.

Lemma withinz_ok : forall zs lo up k, withinz lo up zs = true -> forall y, In y (map (fun m => dec m k) zs) -> dec lo k <= y <= dec up k.
Proof.
  intros zs lo up k H y Hy. apply in_map_iff in Hy as (m & <- & Hm). unfold withinz in H. rewrite forallb_forall in H. specialize (H m Hm).
  apply andb_true_iff in H as [H1 H2]. apply Z.leb_le in H1, H2. split; apply dec_le; auto.
Qed.

Lemma kilo_pos : 0 < kilocalorie.
Proof. unfold kilocalorie. rewrite dec1. lra. Qed.

Lemma scaled_ok : forall c ys lo up, 0 < c -> (forall y, In y ys -> lo <= y <= up) -> forall y, In y (map (fun v => v * c) ys) -> lo * c <= y <= up * c.
Proof. intros c ys lo up Hc H y Hy. apply in_map_iff in Hy as (v & <- & Hv). specialize (H v Hv). split; apply Rmult_le_compat_r; lra. Qed.

Ltac accept k := apply (proj2 (law_accepts _ _)); split; [reflexivity|split; [apply Nat.leb_le; vm_compute; reflexivity|refine (ascz_ok _ k _); vm_compute; reflexivity]].

Lemma viscosity_law : exists f, linear_law water_dynamic_viscosity_x water_dynamic_viscosity_y = Ok f.
Proof. accept 0%nat. Qed.
Lemma water_law : exists f, linear_law water_specific_heat_capacity_x water_specific_heat_capacity_y = Ok f.
Proof. accept 0%nat. Qed.
Lemma ice_law : exists f, linear_law ice_specific_heat_capacity_x ice_specific_heat_capacity_y = Ok f.
Proof. accept 0%nat. Qed.
Lemma air_law : exists f, linear_law air_specific_heat_capacity_x air_specific_heat_capacity_y = Ok f.
Proof. accept 0%nat. Qed.
Lemma vaporization_law : exists f, linear_law vaporization_specific_heat_x vaporization_specific_heat_y = Ok f.
Proof. accept 2%nat. Qed.
Lemma sublimation_law : exists f, linear_law sublimation_specific_heat_x sublimation_specific_heat_y = Ok f.
Proof. accept 0%nat. Qed.

Lemma viscosity_range : forall f x, linear_law water_dynamic_viscosity_x water_dynamic_viscosity_y = Ok f -> 0 <= x <= 100 ->
  0.000282 <= f x <= 0.001787.
Proof.
  intros f x H Hx. assert (K : dec 282 6 <= f x <= dec 1787 6).
  { apply (law_range _ _ f (dec 282 6) (dec 1787 6) x H).
    - apply withinz_ok. vm_compute. reflexivity.
    - exists (dec 0 0). split; [apply (in_map (fun m => dec m 0)); cbn; tauto|rewrite ?dec0, ?dec2; lra].
    - exists (dec 100 0). split; [apply (in_map (fun m => dec m 0)); cbn; tauto|rewrite ?dec0, ?dec2; lra]. }
  rewrite ?dec0, ?dec1, ?dec2, ?dec3, ?dec6 in K. lra.
Qed.

Lemma water_range : forall f x, linear_law water_specific_heat_capacity_x water_specific_heat_capacity_y = Ok f -> -9 <= x <= 29 ->
  0.999 * 4186.8 <= f x <= 1.019 * 4186.8.
Proof.
  intros f x H Hx. assert (K : dec 999 3 * kilocalorie <= f x <= dec 1019 3 * kilocalorie).
  { apply (law_range _ _ f _ _ x H).
    - apply scaled_ok; [apply kilo_pos|]. apply withinz_ok. vm_compute. reflexivity.
    - exists (dec (-9) 0). split; [apply (in_map (fun m => dec m 0)); cbn; tauto|rewrite ?dec0, ?dec2; lra].
    - exists (dec 29 0). split; [apply (in_map (fun m => dec m 0)); cbn; tauto|rewrite ?dec0, ?dec2; lra]. }
  unfold kilocalorie in K. rewrite ?dec0, ?dec1, ?dec2, ?dec3, ?dec6 in K. lra.
Qed.

Lemma ice_range : forall f x, linear_law ice_specific_heat_capacity_x ice_specific_heat_capacity_y = Ok f -> -28 <= x <= -10 ->
  0.452 * 4186.8 <= f x <= 0.485 * 4186.8.
Proof.
  intros f x H Hx. assert (K : dec 452 3 * kilocalorie <= f x <= dec 485 3 * kilocalorie).
  { apply (law_range _ _ f _ _ x H).
    - apply scaled_ok; [apply kilo_pos|]. apply withinz_ok. vm_compute. reflexivity.
    - exists (dec (-28) 0). split; [apply (in_map (fun m => dec m 0)); cbn; tauto|rewrite ?dec0, ?dec2; lra].
    - exists (dec (-10) 0). split; [apply (in_map (fun m => dec m 0)); cbn; tauto|rewrite ?dec0, ?dec2; lra]. }
  unfold kilocalorie in K. rewrite ?dec0, ?dec1, ?dec2, ?dec3, ?dec6 in K. lra.
Qed.

Lemma air_range : forall f x, linear_law air_specific_heat_capacity_x air_specific_heat_capacity_y = Ok f -> -50 <= x <= 550 ->
  1005 <= f x <= 1104.
Proof.
  intros f x H Hx. assert (K : dec 1005 0 <= f x <= dec 1104 0).
  { apply (law_range _ _ f _ _ x H).
    - apply withinz_ok. vm_compute. reflexivity.
    - exists (dec (-50) 0). split; [apply (in_map (fun m => dec m 0)); cbn; tauto|rewrite ?dec0, ?dec2; lra].
    - exists (dec 550 0). split; [apply (in_map (fun m => dec m 0)); cbn; tauto|rewrite ?dec0, ?dec2; lra]. }
  rewrite ?dec0, ?dec1, ?dec2, ?dec3, ?dec6 in K. lra.
Qed.

Lemma vaporization_range : forall f x, linear_law vaporization_specific_heat_x vaporization_specific_heat_y = Ok f -> 0 <= x <= 374.15 ->
  0 <= f x <= 2500.
Proof.
  intros f x H Hx. assert (K : dec 0 0 <= f x <= dec 2500 0).
  { apply (law_range _ _ f _ _ x H).
    - apply withinz_ok. vm_compute. reflexivity.
    - exists (dec 0 2). split; [apply (in_map (fun m => dec m 2)); cbn; tauto|rewrite ?dec0, ?dec2; lra].
    - exists (dec 37415 2). split; [apply (in_map (fun m => dec m 2)); cbn; tauto|rewrite ?dec0, ?dec2; lra]. }
  rewrite ?dec0, ?dec1, ?dec2, ?dec3, ?dec6 in K. lra.
Qed.

Lemma sublimation_range : forall f x, linear_law sublimation_specific_heat_x sublimation_specific_heat_y = Ok f -> -39 <= x <= 0 ->
  676.9 * 4186.8 <= f x <= 698.4 * 4186.8.
Proof.
  intros f x H Hx. assert (K : dec 6769 1 * kilocalorie <= f x <= dec 6984 1 * kilocalorie).
  { apply (law_range _ _ f _ _ x H).
    - apply scaled_ok; [apply kilo_pos|]. apply withinz_ok. vm_compute. reflexivity.
    - exists (dec (-39) 0). split; [apply (in_map (fun m => dec m 0)); cbn; tauto|rewrite ?dec0, ?dec2; lra].
    - exists (dec 0 0). split; [apply (in_map (fun m => dec m 0)); cbn; tauto|rewrite ?dec0, ?dec2; lra]. }
  unfold kilocalorie in K. rewrite ?dec0, ?dec1, ?dec2, ?dec3, ?dec6 in K. lra.
Qed.

(** Beyond the table. *)
Lemma viscosity_beyond : forall f, linear_law water_dynamic_viscosity_x water_dynamic_viscosity_y = Ok f -> f 200 < 0.
Proof.
  intros f H.
  pose proof (law_above _ _ f (combine (map (fun m => dec m 0) [0; 5; 10; 20; 30; 40; 50; 60; 70; 80]%Z)
    (map (fun m => dec m 6) [1787; 1519; 1307; 1002; 798; 653; 547; 467; 404; 355]%Z)) (dec 90 0, dec 315 6) (dec 100 0, dec 282 6) 200 H eq_refl) as K.
  cbn [fst snd] in K. rewrite ?dec0, ?dec1, ?dec2, ?dec3, ?dec6 in K. lra.
Qed.

Lemma vaporization_at_0 : forall f, linear_law vaporization_specific_heat_x vaporization_specific_heat_y = Ok f -> f 0 = 2500.
Proof.
  intros f H. pose proof (law_through _ _ f 0 _ _ H eq_refl eq_refl) as K. rewrite ?dec0, ?dec1, ?dec2, ?dec3, ?dec6 in K.
  replace (0 / 100) with 0 in K by lra. rewrite K. lra.
Qed.

Lemma sublimation_at_0 : forall f, linear_law sublimation_specific_heat_x sublimation_specific_heat_y = Ok f -> f 0 = 676.9 * 4186.8.
Proof.
  intros f H. pose proof (law_through _ _ f 39 _ _ H eq_refl eq_refl) as K. unfold kilocalorie in K. rewrite ?dec0, ?dec1, ?dec2, ?dec3, ?dec6 in K.
  rewrite K. lra.
Qed.

Lemma inside_tables :
  (exists f, linear_law water_dynamic_viscosity_x water_dynamic_viscosity_y = Ok f /\ forall x, 0 <= x <= 100 -> 0.000282 <= f x <= 0.001787) /\
  (exists f, linear_law water_specific_heat_capacity_x water_specific_heat_capacity_y = Ok f /\ forall x, -9 <= x <= 29 -> 0.999 * 4186.8 <= f x <= 1.019 * 4186.8) /\
  (exists f, linear_law ice_specific_heat_capacity_x ice_specific_heat_capacity_y = Ok f /\ forall x, -28 <= x <= -10 -> 0.452 * 4186.8 <= f x <= 0.485 * 4186.8) /\
  (exists f, linear_law air_specific_heat_capacity_x air_specific_heat_capacity_y = Ok f /\ forall x, -50 <= x <= 550 -> 1005 <= f x <= 1104) /\
  (exists f, linear_law vaporization_specific_heat_x vaporization_specific_heat_y = Ok f /\ forall x, 0 <= x <= 374.15 -> 0 <= f x <= 2500) /\
  (exists f, linear_law sublimation_specific_heat_x sublimation_specific_heat_y = Ok f /\ forall x, -39 <= x <= 0 -> 676.9 * 4186.8 <= f x <= 698.4 * 4186.8).
Proof.
  destruct viscosity_law as (f1 & H1), water_law as (f2 & H2), ice_law as (f3 & H3), air_law as (f4 & H4), vaporization_law as (f5 & H5), sublimation_law as (f6 & H6).
  split; [exists f1; split; [exact H1|intros x; exact (viscosity_range f1 x H1)]|].
  split; [exists f2; split; [exact H2|intros x; exact (water_range f2 x H2)]|].
  split; [exists f3; split; [exact H3|intros x; exact (ice_range f3 x H3)]|].
  split; [exists f4; split; [exact H4|intros x; exact (air_range f4 x H4)]|].
  split; [exists f5; split; [exact H5|intros x; exact (vaporization_range f5 x H5)]|].
  exists f6; split; [exact H6|intros x; exact (sublimation_range f6 x H6)].
Qed.

Lemma below_zero : exists f x, linear_law water_dynamic_viscosity_x water_dynamic_viscosity_y = Ok f /\ 100 < x /\ f x < 0.
Proof. destruct viscosity_law as (f & H). exists f, 200. split; [exact H|]. split; [lra|exact (viscosity_beyond f H)]. Qed.

Lemma units_differ : exists v s, linear_law vaporization_specific_heat_x vaporization_specific_heat_y = Ok v /\
  linear_law sublimation_specific_heat_x sublimation_specific_heat_y = Ok s /\ s 0 > 1000 * v 0.
Proof.
  destruct vaporization_law as (v & Hv), sublimation_law as (s & Hs). exists v, s. split; [exact Hv|]. split; [exact Hs|].
  rewrite (vaporization_at_0 v Hv), (sublimation_at_0 s Hs). lra.
Qed.
