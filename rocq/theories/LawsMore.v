(** More about laws by tables: growing and falling laws, polynomials. *)

From Coq Require Import Reals ZArith Bool Lia Lra List.
From Verif Require Import Py Geom Laws LawsSpec LawsProofs LawsTables.
Import ListNotations.
Open Scope list_scope.
Open Scope R_scope.

Lemma line_strict : forall p q x y, fst p < fst q -> snd p < snd q -> x < y -> line p q x < line p q y.
Proof.
  intros p q x y H S Hx. pose proof (line_diff p q y x H) as E.
  assert (0 < (line p q y - line p q x) * (fst q - fst p)) by (rewrite E; apply Rmult_lt_0_compat; lra). nra.
Qed.

Lemma spline_strict : forall t p x y, t <> [] -> ascending (map fst (p :: t)) -> (forall a b, next_to (p :: t) a b -> snd a < snd b) ->
  x < y -> spline1 p t x < spline1 p t y.
Proof.
  induction t as [|q t IH]; intros p x y Ne A S Hxy; [congruence|].
  assert (Hpq : fst p < fst q) by (eapply ascending_head; exact A).
  assert (Spq : snd p < snd q) by (apply S; exists [], t; reflexivity).
  destruct t as [|r t]; [apply line_strict; auto|].
  assert (G : forall x y, x < y -> spline1 q (r :: t) x < spline1 q (r :: t) y).
  { intros a b Hab. apply IH; [discriminate|eapply ascending_tail; exact A| |exact Hab]. intros c d N. apply S. apply next_more. exact N. }
  assert (M : spline1 q (r :: t) (fst q) = snd q).
  { rewrite spline_first; [|eapply ascending_tail; exact A|].
    - apply line_left. eapply ascending_head. eapply ascending_tail. exact A.
    - apply Rlt_le. eapply ascending_head. eapply ascending_tail. exact A. }
  rewrite !spline_step.
  destruct (Rltb x (fst q)) eqn:Ex, (Rltb y (fst q)) eqn:Ey; rewrite ?ltb_true, ?ltb_false in *.
  - apply line_strict; auto.
  - apply Rlt_le_trans with (snd q).
    + rewrite <- (line_right p q Hpq). apply line_strict; auto.
    + rewrite <- M. destruct (Req_dec (fst q) y) as [->|N]; [lra|]. apply Rlt_le. apply G. lra.
  - lra.
  - apply G. lra.
Qed.

(** The table turned upside down. *)
Definition flip (r : R * R) : R * R := (fst r, - snd r).

Lemma line_flip : forall p q x, line (flip p) (flip q) x = - line p q x.
Proof. intros. unfold line, flip. cbn [fst snd]. unfold Rdiv. ring. Qed.

Lemma spline_flip : forall t p x, spline1 (flip p) (map flip t) x = - spline1 p t x.
Proof.
  induction t as [|q t IH]; intros p x; [reflexivity|]. destruct t as [|r t]; [apply line_flip|].
  cbn [map]. rewrite !spline_step. cbn [fst flip]. destruct (Rltb x (fst q)); [apply line_flip|]. apply (IH q x).
Qed.

Lemma flip_fst : forall rows, map fst (map flip rows) = map fst rows.
Proof. intros. rewrite map_map. reflexivity. Qed.

Lemma flip_next : forall rows a b, next_to (map flip rows) a b -> next_to rows (flip a) (flip b).
Proof.
  intros rows a b (u & v & E).
  assert (I : forall r, flip (flip r) = r) by (intros [x y]; unfold flip; cbn; f_equal; ring).
  assert (E2 : rows = map flip (map flip rows)) by (rewrite map_map; rewrite <- (map_id rows) at 1; apply map_ext; intros; symmetry; apply I).
  rewrite E2, E. rewrite map_app. cbn [map]. exists (map flip u), (map flip v). reflexivity.
Qed.

Theorem law_rises : forall xs ys f, linear_law xs ys = Ok f -> (forall a b, next_to (combine xs ys) a b -> snd a < snd b) ->
  forall x y, x < y -> f x < f y.
Proof.
  intros xs ys f H S x y Hxy. destruct (law_inv xs ys f H) as (_ & A & p & t & Ne & Ec & -> & M).
  apply spline_strict; [exact Ne|rewrite M; exact A|rewrite <- Ec; exact S|exact Hxy].
Qed.

Theorem law_falls : forall xs ys f, linear_law xs ys = Ok f -> (forall a b, next_to (combine xs ys) a b -> snd b < snd a) ->
  forall x y, x < y -> f y < f x.
Proof.
  intros xs ys f H S x y Hxy. destruct (law_inv xs ys f H) as (_ & A & p & t & Ne & Ec & -> & M).
  assert (K : spline1 (flip p) (map flip t) x < spline1 (flip p) (map flip t) y).
  { apply spline_strict; [destruct t; [congruence|discriminate]| | |exact Hxy].
    - change (flip p :: map flip t) with (map flip (p :: t)). rewrite flip_fst, M. exact A.
    - change (flip p :: map flip t) with (map flip (p :: t)). intros a b N. apply flip_next in N. rewrite <- Ec in N. apply S in N. unfold flip in N. cbn in N. lra. }
  rewrite !spline_flip in K. lra.
Qed.

Theorem law_not_rises : forall xs ys f, linear_law xs ys = Ok f -> (forall a b, next_to (combine xs ys) a b -> snd b <= snd a) ->
  forall x y, x <= y -> f y <= f x.
Proof.
  intros xs ys f H S x y Hxy. destruct (law_inv xs ys f H) as (_ & A & p & t & Ne & Ec & -> & M).
  assert (K : spline1 (flip p) (map flip t) x <= spline1 (flip p) (map flip t) y).
  { apply spline_mono; [destruct t; [congruence|discriminate]| | |exact Hxy].
    - change (flip p :: map flip t) with (map flip (p :: t)). rewrite flip_fst, M. exact A.
    - change (flip p :: map flip t) with (map flip (p :: t)). intros a b N. apply flip_next in N. rewrite <- Ec in N. apply S in N. unfold flip in N. cbn in N. lra. }
  rewrite !spline_flip in K. lra.
Qed.

(** ** The tables *)

(** Every number of the list stands in the relation to the next one. *)
Fixpoint chain {A} (r : A -> A -> Prop) (l : list A) : Prop :=
  match l with x :: t => match t with y :: _ => r x y | [] => True end /\ chain r t | [] => True end.
Fixpoint chainb (r : Z -> Z -> bool) (l : list Z) : bool :=
  match l with x :: t => match t with y :: _ => r x y | [] => true end && chainb r t | [] => true end.

Lemma chain_map : forall (rb : Z -> Z -> bool) (r : R -> R -> Prop) g l, (forall a b, rb a b = true -> r (g a) (g b)) ->
  chainb rb l = true -> chain r (map g l).
Proof.
  intros rb r g l G. induction l as [|x [|y t] IH]; intros H; [exact I|cbn; auto|]. cbn [chainb] in H. apply andb_true_iff in H as [H1 H2].
  split; [apply G; exact H1|]. apply IH. exact H2.
Qed.

Lemma chain_next : forall (r : R -> R -> Prop) xs ys a b, chain r ys -> next_to (combine xs ys) a b -> r (snd a) (snd b).
Proof.
  intros r xs ys a b C (u & v & E). revert xs ys C E. induction u as [|w u IH]; intros xs ys C E.
  - destruct xs as [|x [|x' xs]], ys as [|y [|y' ys]]; try discriminate E. cbn in E. injection E as <- <- _. apply C.
  - destruct xs as [|x xs], ys as [|y ys]; try discriminate E. cbn in E. injection E as _ E. apply (IH xs ys); [apply C|exact E].
Qed.

Lemma dec_lt : forall k a b, (a <? b)%Z = true -> dec a k < dec b k.
Proof.
  intros k a b H. apply Z.ltb_lt in H. unfold dec, Rdiv. apply Rmult_lt_compat_r; [apply Rinv_0_lt_compat; apply pow_lt; lra|]. apply IZR_lt. exact H.
Qed.
Lemma dec_le : forall k a b, (a <=? b)%Z = true -> dec a k <= dec b k.
Proof.
  intros k a b H. apply Z.leb_le in H. unfold dec, Rdiv. apply Rmult_le_compat_r; [apply Rlt_le, Rinv_0_lt_compat; apply pow_lt; lra|]. apply IZR_le. exact H.
Qed.
Lemma kilo_lt : forall x y, x < y -> x * kilocalorie < y * kilocalorie.
Proof. intros. apply Rmult_lt_compat_r; [apply kilo_pos|assumption]. Qed.

Lemma tables_steady :
  (exists f, linear_law water_dynamic_viscosity_x water_dynamic_viscosity_y = Ok f /\ forall x y, x < y -> f y < f x) /\
  (exists f, linear_law water_specific_heat_capacity_x water_specific_heat_capacity_y = Ok f /\ forall x y, x <= y -> f y <= f x) /\
  (exists f, linear_law ice_specific_heat_capacity_x ice_specific_heat_capacity_y = Ok f /\ forall x y, x < y -> f x < f y) /\
  (exists f, linear_law vaporization_specific_heat_x vaporization_specific_heat_y = Ok f /\ forall x y, x < y -> f y < f x) /\
  (exists f, linear_law sublimation_specific_heat_x sublimation_specific_heat_y = Ok f /\ forall x y, x < y -> f y < f x).
Proof.
  destruct inside_tables as ((f1 & E1 & _) & (f2 & E2 & _) & (f3 & E3 & _) & _ & (f5 & E5 & _) & (f6 & E6 & _)).
  repeat split.
  - exists f1. split; [exact E1|]. apply (law_falls _ _ _ E1). intros a b. apply (chain_next (fun x y => y < x)).
    apply (chain_map (fun a b => b <? a)%Z); [intros; apply dec_lt; assumption|vm_compute; reflexivity].
  - exists f2. split; [exact E2|]. apply (law_not_rises _ _ _ E2). intros a b. apply (chain_next (fun x y => y <= x)).
    unfold water_specific_heat_capacity_y. rewrite map_map.
    apply (chain_map (fun a b => b <=? a)%Z); [intros; apply Rmult_le_compat_r; [apply Rlt_le, kilo_pos|apply dec_le; assumption]|vm_compute; reflexivity].
  - exists f3. split; [exact E3|]. apply (law_rises _ _ _ E3). intros a b. apply (chain_next Rlt).
    unfold ice_specific_heat_capacity_y. rewrite map_map.
    apply (chain_map Z.ltb); [intros; apply kilo_lt; apply dec_lt; assumption|vm_compute; reflexivity].
  - exists f5. split; [exact E5|]. apply (law_falls _ _ _ E5). intros a b. apply (chain_next (fun x y => y < x)).
    apply (chain_map (fun a b => b <? a)%Z); [intros; apply dec_lt; assumption|vm_compute; reflexivity].
  - exists f6. split; [exact E6|]. apply (law_falls _ _ _ E6). intros a b. apply (chain_next (fun x y => y < x)).
    unfold sublimation_specific_heat_y. rewrite map_map.
    apply (chain_map (fun a b => b <? a)%Z); [intros; apply kilo_lt; apply dec_lt; assumption|vm_compute; reflexivity].
Qed.

(** The heat capacity of air first falls, then rises. *)
Lemma air_turns : exists f, linear_law air_specific_heat_capacity_x air_specific_heat_capacity_y = Ok f /\ f 0 < f (-50) /\ f 0 < f 550.
Proof.
  destruct inside_tables as (_ & _ & _ & (f & E & _) & _). exists f. split; [exact E|].
  pose proof (law_through _ _ f 0 _ _ E eq_refl eq_refl) as K1. pose proof (law_through _ _ f 10 _ _ E eq_refl eq_refl) as K2.
  pose proof (law_through _ _ f 38 _ _ E eq_refl eq_refl) as K3. rewrite ?dec0 in K1, K2, K3. rewrite K1, K2, K3. lra.
Qed.

(** ** Polynomials *)

Lemma cubic_poly : forall cs x, List.length cs = 4%nat -> cubic x cs = Ok (poly cs x).
Proof. intros [|a [|b [|c [|d [|]]]]] x L; try discriminate L. unfold cubic, poly. cbn [fold_left]. f_equal. ring. Qed.
Lemma quadro_poly : forall cs x, List.length cs = 5%nat -> quadro x cs = Ok (poly cs x).
Proof. intros [|a [|b [|c [|d [|e [|]]]]]] x L; try discriminate L. unfold quadro, poly. cbn [fold_left]. f_equal. ring. Qed.

Theorem fitted_poly : forall fit func n xs ys law cs, (func = cubic /\ n = 4%nat \/ func = quadro /\ n = 5%nat) ->
  least_squares fit func xs ys -> func_law fit func xs ys = Ok law -> List.length cs = n ->
  (forall r, In r (combine xs ys) -> poly cs (fst r) = snd r) -> forall r, In r (combine xs ys) -> law (fst r) = Ok (snd r).
Proof.
  intros fit func n xs ys law cs C L E Hn T. apply (fitted fit func xs ys law cs (poly cs) L E); [|exact T].
  intros x. destruct C as [[-> ->]|[-> ->]]; [apply cubic_poly|apply quadro_poly]; exact Hn.
Qed.

(** Any values come from the polynomial, wherever the law is called. *)
Theorem fitted_is_poly : forall fit func n xs ys law, (func = cubic /\ n = 4%nat \/ func = quadro /\ n = 5%nat) ->
  func_law fit func xs ys = Ok law -> forall x0 y0, law x0 = Ok y0 -> exists cs, List.length cs = n /\ forall x, law x = Ok (poly cs x).
Proof.
  intros fit func n xs ys law C E x0 y0 H0. unfold func_law in E. destruct (fit func xs ys) as [ps|e]; [|discriminate E].
  cbn [rbind] in E. assert (law = fun x => func x ps) by congruence. subst law. clear E. exists ps.
  destruct C as [[-> ->]|[-> ->]].
  - assert (L : List.length ps = 4%nat) by (destruct ps as [|a [|b [|c [|d [|]]]]]; try discriminate H0; reflexivity).
    split; [exact L|]. intros x. apply cubic_poly. exact L.
  - assert (L : List.length ps = 5%nat) by (destruct ps as [|a [|b [|c [|d [|e [|]]]]]]; try discriminate H0; reflexivity).
    split; [exact L|]. intros x. apply quadro_poly. exact L.
Qed.
