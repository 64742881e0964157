(** C101-C104: laws by tables, the C part and names of intermediate files. *)

From Coq Require Import Reals ZArith Ascii String Bool Lia Lra List.
From Verif Require Import Py Geom Laws LawsSpec LawsProofs LawsNames LawsTables LawsMore.
Import ListNotations.
Open Scope list_scope.
Open Scope R_scope.

(* ================================================================ *)
(** ** C101: a linear law follows its table *)

Theorem C101_accepted : forall xs ys, (exists f, linear_law xs ys = Ok f) <-> List.length xs = List.length ys /\ (2 <= List.length xs)%nat /\ ascending xs.
Proof. exact law_accepts. Qed.
Print Assumptions C101_accepted.

Theorem C101_through : forall xs ys f i x y, linear_law xs ys = Ok f -> nth_error xs i = Some x -> nth_error ys i = Some y -> f x = y.
Proof. exact law_through. Qed.
Print Assumptions C101_through.

Theorem C101_between : forall xs ys f a b s, linear_law xs ys = Ok f -> next_to (combine xs ys) a b -> 0 <= s <= 1 ->
  f ((1 - s) * fst a + s * fst b) = (1 - s) * snd a + s * snd b.
Proof. exact law_between. Qed.
Print Assumptions C101_between.

(** Before the first row and after the last row the first and the last line go on. *)
Theorem C101_before : forall xs ys f a b r x, linear_law xs ys = Ok f -> combine xs ys = a :: b :: r -> x <= fst a ->
  (f x - snd a) * (fst b - fst a) = (snd b - snd a) * (x - fst a).
Proof. exact law_below. Qed.
Print Assumptions C101_before.

Theorem C101_after : forall xs ys f u a b x, linear_law xs ys = Ok f -> combine xs ys = u ++ [a; b] -> fst b <= x ->
  (f x - snd b) * (fst b - fst a) = (snd b - snd a) * (x - fst b).
Proof. exact law_above. Qed.
Print Assumptions C101_after.

(** Inside the table the law stays within the values of the table. *)
Theorem C101_range : forall xs ys f lo hi x, linear_law xs ys = Ok f -> (forall y, In y ys -> lo <= y <= hi) ->
  (exists a, In a xs /\ a <= x) -> (exists b, In b xs /\ x <= b) -> lo <= f x <= hi.
Proof. exact law_range. Qed.
Print Assumptions C101_range.

Theorem C101_monotone : forall xs ys f, linear_law xs ys = Ok f -> (forall a b, next_to (combine xs ys) a b -> snd a <= snd b) ->
  forall x y, x <= y -> f x <= f y.
Proof. exact law_mono. Qed.
Print Assumptions C101_monotone.

(** The law is nowhere steeper than its table; so it has no jumps. *)
Theorem C101_steepness : forall xs ys f L, linear_law xs ys = Ok f ->
  (forall a b, next_to (combine xs ys) a b -> Rabs (snd b - snd a) <= L * (fst b - fst a)) ->
  forall x y, Rabs (f x - f y) <= L * Rabs (x - y).
Proof. exact law_steep. Qed.
Print Assumptions C101_steepness.

(** A fitted law passes through the table, if some choice of parameters does. *)
Theorem C101_fitted : forall fit func xs ys law ps0 g0, least_squares fit func xs ys -> func_law fit func xs ys = Ok law ->
  (forall x, func x ps0 = Ok (g0 x)) -> (forall r, In r (combine xs ys) -> g0 (fst r) = snd r) ->
  forall r, In r (combine xs ys) -> law (fst r) = Ok (snd r).
Proof. exact fitted. Qed.
Print Assumptions C101_fitted.

(** A law fitted with _cubic or _quadro passes through every table that lies on a polynomial of
    degree three or four; and wherever it gives a number it is such a polynomial. *)
Theorem C101_polynomial : forall fit func n xs ys law cs, (func = cubic /\ n = 4%nat \/ func = quadro /\ n = 5%nat) ->
  least_squares fit func xs ys -> func_law fit func xs ys = Ok law -> List.length cs = n ->
  (forall r, In r (combine xs ys) -> poly cs (fst r) = snd r) -> forall r, In r (combine xs ys) -> law (fst r) = Ok (snd r).
Proof. exact fitted_poly. Qed.
Print Assumptions C101_polynomial.

Theorem C101_is_polynomial : forall fit func n xs ys law, (func = cubic /\ n = 4%nat \/ func = quadro /\ n = 5%nat) ->
  func_law fit func xs ys = Ok law -> forall x0 y0, law x0 = Ok y0 -> exists cs, List.length cs = n /\ forall x, law x = Ok (poly cs x).
Proof. exact fitted_is_poly. Qed.
Print Assumptions C101_is_polynomial.

(** A fit that finds 2 x^3 + 1 for the table of its values at 0, 1 and 2. *)
Example C101_polynomial_example : let fit := fun (_ : R -> list R -> res R) (_ _ : list R) => Ok [2; 0; 0; 1] in
  least_squares fit cubic [0; 1; 2] [1; 3; 17] /\ (exists law, func_law fit cubic [0; 1; 2] [1; 3; 17] = Ok law) /\
  forall r, In r (combine [0; 1; 2] [1; 3; 17]) -> poly [2; 0; 0; 1] (fst r) = snd r.
Proof.
  cbn zeta. split; [|split].
  - intros ps E. injection E as <-. exists (poly [2; 0; 0; 1]). split; [intros x; apply cubic_poly; reflexivity|].
    intros ps' g' _. eapply Rle_trans; [|apply deviation_pos]. unfold deviation, poly. cbn. lra.
  - eexists. reflexivity.
  - intros r [<-|[<-|[<-|[]]]]; unfold poly; cbn; lra.
Qed.

(** A constant law gives its constant. *)
Theorem C101_constant : forall c x, const_law c x = c.
Proof. reflexivity. Qed.
Print Assumptions C101_constant.

(** A table with three rows; in the middle of the second gap the value is the mean. *)
Example C101_example : exists f, linear_law [0; 1; 3] [5; 7; 1] = Ok f /\ f 0 = 5 /\ f 1 = 7 /\ f 2 = 4 /\ f 4 = -2 /\ f (-1) = 3.
Proof.
  destruct (proj2 (C101_accepted [0; 1; 3] [5; 7; 1])) as (f & H).
  { split; [reflexivity|]. split; [cbn; lia|]. intros u a b v E. destruct u as [|? [|? [|? u]]]; injection E; intros; subst; try lra; try discriminate; destruct u; discriminate. }
  exists f. split; [exact H|]. split; [exact (C101_through _ _ f 0 _ _ H eq_refl eq_refl)|]. split; [exact (C101_through _ _ f 1 _ _ H eq_refl eq_refl)|].
  split; [|split].
  - pose proof (C101_between _ _ f (1, 7) (3, 1) (1 / 2) H (ex_intro _ [(0, 5)] (ex_intro _ [] eq_refl)) ltac:(lra)) as K. cbn [fst snd] in K.
    replace ((1 - 1 / 2) * 1 + 1 / 2 * 3) with 2 in K by lra. lra.
  - pose proof (C101_after _ _ f [(0, 5)] (1, 7) (3, 1) 4 H eq_refl) as K. cbn [fst snd] in K. lra.
  - pose proof (C101_before _ _ f (0, 5) (1, 7) [(3, 1)] (-1) H eq_refl) as K. cbn [fst snd] in K. lra.
Qed.

(** A cubic with a table on it and a fit that finds it. *)
Example C101_fitted_example : let g x := 2 * x ^ 3 + 0 * x ^ 2 + 1 * x + 3 in let fit := fun _ _ _ => Ok [2; 0; 1; 3] in
  least_squares fit cubic [0; 1] [3; 6] /\ (exists law, func_law fit cubic [0; 1] [3; 6] = Ok law) /\
  (forall x, cubic x [2; 0; 1; 3] = Ok (g x)) /\ (forall r, In r (combine [0; 1] [3; 6]) -> g (fst r) = snd r).
Proof.
  intros g fit. split.
  - intros ps E. injection E as <-. exists g. split; [reflexivity|]. intros ps' g' _.
    replace (deviation g (combine [0; 1] [3; 6])) with 0; [apply deviation_pos|]. unfold deviation, g. cbn. ring.
  - split; [eexists; reflexivity|]. split; [reflexivity|]. intros r [<-|[<-|[]]]; unfold g; cbn; lra.
Qed.

(* ================================================================ *)
(** ** C102: the tables give sensible values *)

(** Full claim: the laws give positive values at every temperature, all energies are in joules per
    kilogram.  Inside of the tables the values are within the stated bounds. *)
Theorem C102_inside_partial :
  (exists f, linear_law water_dynamic_viscosity_x water_dynamic_viscosity_y = Ok f /\ forall x, 0 <= x <= 100 -> 0.000282 <= f x <= 0.001787) /\
  (exists f, linear_law water_specific_heat_capacity_x water_specific_heat_capacity_y = Ok f /\ forall x, -9 <= x <= 29 -> 0.999 * 4186.8 <= f x <= 1.019 * 4186.8) /\
  (exists f, linear_law ice_specific_heat_capacity_x ice_specific_heat_capacity_y = Ok f /\ forall x, -28 <= x <= -10 -> 0.452 * 4186.8 <= f x <= 0.485 * 4186.8) /\
  (exists f, linear_law air_specific_heat_capacity_x air_specific_heat_capacity_y = Ok f /\ forall x, -50 <= x <= 550 -> 1005 <= f x <= 1104) /\
  (exists f, linear_law vaporization_specific_heat_x vaporization_specific_heat_y = Ok f /\ forall x, 0 <= x <= 374.15 -> 0 <= f x <= 2500) /\
  (exists f, linear_law sublimation_specific_heat_x sublimation_specific_heat_y = Ok f /\ forall x, -39 <= x <= 0 -> 676.9 * 4186.8 <= f x <= 698.4 * 4186.8).
Proof. exact inside_tables. Qed.
Print Assumptions C102_inside_partial.

(** Beyond the table the viscosity is below zero. *)
Theorem C102_positive_refuted : exists f x, linear_law water_dynamic_viscosity_x water_dynamic_viscosity_y = Ok f /\ 100 < x /\ f x < 0.
Proof. exact below_zero. Qed.
Print Assumptions C102_positive_refuted.

(** The laws by the tables are steady, also outside of the tables: viscosity and the heats of
    vaporization and sublimation fall, the heat capacity of water never rises, that of ice rises.
    That of air turns. *)
Theorem C102_steady :
  (exists f, linear_law water_dynamic_viscosity_x water_dynamic_viscosity_y = Ok f /\ forall x y, x < y -> f y < f x) /\
  (exists f, linear_law water_specific_heat_capacity_x water_specific_heat_capacity_y = Ok f /\ forall x y, x <= y -> f y <= f x) /\
  (exists f, linear_law ice_specific_heat_capacity_x ice_specific_heat_capacity_y = Ok f /\ forall x y, x < y -> f x < f y) /\
  (exists f, linear_law vaporization_specific_heat_x vaporization_specific_heat_y = Ok f /\ forall x y, x < y -> f y < f x) /\
  (exists f, linear_law sublimation_specific_heat_x sublimation_specific_heat_y = Ok f /\ forall x y, x < y -> f y < f x).
Proof. exact tables_steady. Qed.
Print Assumptions C102_steady.

Theorem C102_steady_refuted : exists f, linear_law air_specific_heat_capacity_x air_specific_heat_capacity_y = Ok f /\ f 0 < f (-50) /\ f 0 < f 550.
Proof. exact air_turns. Qed.
Print Assumptions C102_steady_refuted.

(** To sublimate ice at 0 degrees takes melting and vaporizing it; by the tables it takes more than a
    thousand times as much as vaporizing: the two tables are in different units. *)
Theorem C102_units_refuted : exists v s, linear_law vaporization_specific_heat_x vaporization_specific_heat_y = Ok v /\
  linear_law sublimation_specific_heat_x sublimation_specific_heat_y = Ok s /\ s 0 > 1000 * v 0.
Proof. exact units_differ. Qed.
Print Assumptions C102_units_refuted.

(* ================================================================ *)
(** ** C103: the C part adds 1, 2 and 3 *)

(** The second and the third array may be longer; what is after the common length is unchanged. *)
Theorem C103_added : forall a1 a2 a3 r2 r3, List.length a2 = List.length a1 -> List.length a3 = List.length a1 ->
  hi a1 (a2 ++ r2) (a3 ++ r3) = Ok (map (fun x => x + 1) a1, map (fun x => x + 2) a2 ++ r2, map (fun x => x + 3) a3 ++ r3).
Proof. exact hi_ok. Qed.
Print Assumptions C103_added.

(** If the second or the third is shorter than the first, memory outside of it is written. *)
Theorem C103_shorter : forall a1 a2 a3, (List.length a2 < List.length a1 \/ List.length a3 < List.length a1)%nat -> exists e, hi a1 a2 a3 = Raise e.
Proof. exact hi_short. Qed.
Print Assumptions C103_shorter.

Example C103_example : hi [5; 6] [0; 1; 9] [7; 7] = Ok ([5 + 1; 6 + 1], [0 + 2; 1 + 2; 9], [7 + 3; 7 + 3]).
Proof. exact (C103_added [5; 6] [0; 1] [7; 7] [9] [] eq_refl eq_refl). Qed.

(* ================================================================ *)
(** ** C104: names of intermediate files of smoothing *)

Theorem C104_names_differ : forall base i j, iteration_file base i = iteration_file base j -> i = j.
Proof. exact name_differs. Qed.
Print Assumptions C104_names_differ.

(** Full claim: the files are listed in the order of the iterations.  It holds up to number 999. *)
Theorem C104_order_partial : forall base i j, (i < j)%nat -> (j <= 999)%nat -> listed_before (iteration_file base i) (iteration_file base j).
Proof. exact name_order. Qed.
Print Assumptions C104_order_partial.

Theorem C104_order_refuted : exists base i j, (i < j)%nat /\ listed_before (iteration_file base j) (iteration_file base i).
Proof. exists (lit "taubin"), 999%nat, 1000%nat. split; [lia|]. exact late_before. Qed.
Print Assumptions C104_order_refuted.

Example C104_example : iteration_file (lit "NullSpace") 7 = lit "NullSpace_smoothing_007.dat".
Proof. vm_compute. reflexivity. Qed.
