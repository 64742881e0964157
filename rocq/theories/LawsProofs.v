(** Proofs about laws by tables, swim.cpp and names of intermediate files. *)

From Coq Require Import Reals ZArith NArith Ascii String Bool Lia Lra Psatz List.
From Verif Require Import Py PyLemmas TextLemmas Geom Laws LawsSpec.
Import ListNotations.
Open Scope list_scope.
Open Scope R_scope.

(* ---------------------------------------------------------------- *)
(** ** Tables *)

Lemma ltb_true : forall x y, Rltb x y = true <-> x < y.
Proof. intros x y. unfold Rltb. destruct (Rlt_dec x y); split; intros; auto; discriminate. Qed.
Lemma ltb_false : forall x y, Rltb x y = false <-> y <= x.
Proof. intros x y. unfold Rltb. destruct (Rlt_dec x y); split; intros; auto; try discriminate; lra. Qed.

Lemma ascendingb_ok : forall xs, ascendingb xs = true <-> ascending xs.
Proof.
  induction xs as [|x xs IH]; split.
  - intros _ u a b v E. destruct u; discriminate E.
  - reflexivity.
  - intros H. destruct xs as [|y xs].
    + intros u a b v E. destruct u as [|? u]; [discriminate E|destruct u; discriminate E].
    + cbn [ascendingb] in H. apply andb_true_iff in H as [H1 H2]. apply ltb_true in H1. apply IH in H2.
      intros u a b v E. destruct u as [|c u].
      * injection E as <- <- _. exact H1.
      * injection E as _ E. exact (H2 u a b v E).
  - intros H. destruct xs as [|y xs]; [reflexivity|]. cbn [ascendingb]. apply andb_true_iff. split.
    + apply ltb_true. exact (H [] x y xs eq_refl).
    + apply IH. intros u a b v E. apply (H (x :: u) a b v). rewrite E. reflexivity.
Qed.

Lemma ascending_tail : forall x xs, ascending (x :: xs) -> ascending xs.
Proof. intros x xs H u a b v E. apply (H (x :: u) a b v). rewrite E. reflexivity. Qed.
Lemma ascending_head : forall x y xs, ascending (x :: y :: xs) -> x < y.
Proof. intros x y xs H. exact (H [] x y xs eq_refl). Qed.
Lemma ascending_first : forall xs x y, ascending (x :: xs) -> In y xs -> x < y.
Proof.
  induction xs as [|z xs IH]; intros x y H Hy; [destruct Hy|]. pose proof (ascending_head _ _ _ H).
  destruct Hy as [->|Hy]; [auto|]. specialize (IH z y (ascending_tail _ _ H) Hy). lra.
Qed.

Lemma line_left : forall p q, fst p < fst q -> line p q (fst p) = snd p.
Proof. intros [a b] [c d] H. unfold line. cbn in *. field. lra. Qed.
Lemma line_right : forall p q, fst p < fst q -> line p q (fst q) = snd q.
Proof. intros [a b] [c d] H. unfold line. cbn in *. field. lra. Qed.
Lemma line_diff : forall p q x y, fst p < fst q -> (line p q x - line p q y) * (fst q - fst p) = (snd q - snd p) * (x - y).
Proof. intros [a b] [c d] x y H. unfold line. cbn in *. field. lra. Qed.

Lemma next_cons : forall p t a b, next_to (p :: t) a b -> (exists r, t = b :: r /\ a = p) \/ next_to t a b.
Proof.
  intros p t a b (u & v & E). destruct u as [|c u]; injection E as E1 E2.
  - left. exists v. auto.
  - right. exists u, v. auto.
Qed.

Lemma next_more : forall p t a b, next_to t a b -> next_to (p :: t) a b.
Proof. intros p t a b (u & v & ->). exists (p :: u), v. reflexivity. Qed.

(** A step of the table. *)
Lemma spline_step : forall p q r t x, spline1 p (q :: r :: t) x = if Rltb x (fst q) then line p q x else spline1 q (r :: t) x.
Proof. reflexivity. Qed.

Lemma spline_first : forall t p q x, ascending (map fst (p :: q :: t)) -> x <= fst q -> spline1 p (q :: t) x = line p q x.
Proof.
  intros t p q x A Hx. destruct t as [|r t]; [reflexivity|]. rewrite spline_step.
  destruct (Rltb x (fst q)) eqn:E; [reflexivity|]. apply ltb_false in E.
  assert (x = fst q) by lra. subst x. cbn [map] in A. rewrite line_right by (eapply ascending_head; exact A).
  assert (K : fst q < fst r) by (eapply ascending_head; eapply ascending_tail; exact A).
  destruct t as [|s t].
  - cbn [spline1]. apply line_left. auto.
  - rewrite spline_step. replace (Rltb (fst q) (fst r)) with true by (symmetry; apply ltb_true; auto). apply line_left. auto.
Qed.

(** Between two rows and beyond the ends the value is on a line. *)
Lemma spline_between : forall t p a b x, ascending (map fst (p :: t)) -> next_to (p :: t) a b -> fst a <= x <= fst b -> spline1 p t x = line a b x.
Proof.
  induction t as [|q t IH]; intros p a b x A N Hx.
  - destruct N as (u & v & E). destruct u as [|? u]; [discriminate E|destruct u; discriminate E].
  - apply next_cons in N as [(r & E & ->)|N].
    + injection E as -> ->. apply spline_first; [exact A|lra].
    + pose proof N as N'. destruct N' as (u & v & E).
      assert (Hqa : fst q <= fst a).
      { destruct u as [|c u]; injection E as E1 E2; [subst; lra|]. subst c. apply Rlt_le. cbn [map] in A.
        apply (ascending_first (map fst t) (fst q)); [eapply ascending_tail; exact A|]. rewrite E2, map_app. apply in_app_iff. right. left. reflexivity. }
      destruct t as [|r t]; [destruct u as [|? u]; [discriminate E|destruct u; discriminate E]|].
      rewrite spline_step. replace (Rltb x (fst q)) with false by (symmetry; apply ltb_false; lra).
      apply IH; [eapply ascending_tail; exact A|exact N|exact Hx].
Qed.

Lemma spline_beyond : forall t p a b x, ascending (map fst (p :: t)) -> (exists u, p :: t = u ++ [a; b]) -> fst b <= x -> spline1 p t x = line a b x.
Proof.
  induction t as [|q t IH]; intros p a b x A (u & E) Hx.
  - destruct u as [|? u]; [discriminate E|destruct u; discriminate E].
  - destruct u as [|c u]; injection E as E1 E2.
    + subst. reflexivity.
    + subst c. destruct t as [|r t]; [destruct u as [|? u]; [discriminate E2|destruct u; discriminate E2]|].
      rewrite spline_step.
      assert (Hq : fst q <= fst b).
      { apply Rlt_le. apply (ascending_first (map fst (r :: t)) (fst q)); [eapply ascending_tail; exact A|].
        assert (In b (r :: t)); [|apply in_map; auto].
        assert (K : In b (q :: r :: t)) by (rewrite E2; apply in_app_iff; right; right; left; auto).
        destruct K as [K|K]; [|exact K]. subst b. exfalso.
        assert (L : List.length (q :: r :: t) = List.length (u ++ [a; q])) by (rewrite E2; reflexivity).
        destruct u as [|d u].
        - injection E2 as E3 E4 E5. subst. pose proof (ascending_head _ _ _ (ascending_tail _ _ A)). lra.
        - injection E2 as E3 E4. subst d. assert (In q (r :: t)) by (rewrite E4; apply in_app_iff; right; right; left; auto).
          pose proof (ascending_first (map fst (r :: t)) (fst q) (fst q) (ascending_tail _ _ A) (in_map fst _ _ H)). lra. }
      replace (Rltb x (fst q)) with false by (symmetry; apply ltb_false; lra).
      apply IH; [eapply ascending_tail; exact A|exists u; exact E2|exact Hx].
Qed.

(** Two functions, one after the other. *)
Definition steep (L : R) (p q : R * R) : Prop := Rabs (snd q - snd p) <= L * (fst q - fst p).

Lemma line_lip : forall L p q x y, fst p < fst q -> steep L p q -> Rabs (line p q x - line p q y) <= L * Rabs (x - y).
Proof.
  intros L p q x y H S. pose proof (line_diff p q x y H) as E. unfold steep in S.
  assert (K : Rabs (line p q x - line p q y) * (fst q - fst p) <= L * Rabs (x - y) * (fst q - fst p)).
  { rewrite <- (Rabs_right (fst q - fst p)) at 1 by lra. rewrite <- Rabs_mult, E, Rabs_mult.
    pose proof (Rabs_pos (x - y)). nra. }
  apply (Rmult_le_reg_r (fst q - fst p)); [lra|exact K].
Qed.

Lemma spline_lip : forall L t p x y, t <> [] -> ascending (map fst (p :: t)) -> (forall a b, next_to (p :: t) a b -> steep L a b) ->
  Rabs (spline1 p t x - spline1 p t y) <= L * Rabs (x - y).
Proof.
  intros L. induction t as [|q t IH]; intros p x y Ne A S; [congruence|].
  assert (Hpq : fst p < fst q) by (eapply ascending_head; exact A).
  assert (Spq : steep L p q) by (apply S; exists [], t; reflexivity).
  destruct t as [|r t]; [apply line_lip; auto|].
  assert (G : forall x y, Rabs (spline1 q (r :: t) x - spline1 q (r :: t) y) <= L * Rabs (x - y)).
  { intros a b. apply IH; [discriminate|eapply ascending_tail; exact A|]. intros c d N. apply S. apply next_more. exact N. }
  assert (M : spline1 q (r :: t) (fst q) = snd q).
  { rewrite spline_first; [|eapply ascending_tail; exact A|].
    - apply line_left. eapply ascending_head. eapply ascending_tail. exact A.
    - apply Rlt_le. eapply ascending_head. eapply ascending_tail. exact A. }
  rewrite !spline_step.
  destruct (Rltb x (fst q)) eqn:Ex, (Rltb y (fst q)) eqn:Ey; rewrite ?ltb_true, ?ltb_false in *.
  - apply line_lip; auto.
  - pose proof (line_lip L p q x (fst q) Hpq Spq) as K1. rewrite line_right in K1 by auto. pose proof (G (fst q) y) as K2. rewrite M in K2.
    replace (line p q x - spline1 q (r :: t) y) with ((line p q x - snd q) + (snd q - spline1 q (r :: t) y)) by ring.
    eapply Rle_trans; [apply Rabs_triang|].
    rewrite (Rabs_left (x - fst q)) in K1 by lra. rewrite (Rabs_left1 (fst q - y)) in K2 by lra. rewrite (Rabs_left (x - y)) by lra. lra.
  - pose proof (line_lip L p q (fst q) y Hpq Spq) as K1. rewrite line_right in K1 by auto. pose proof (G x (fst q)) as K2. rewrite M in K2.
    replace (spline1 q (r :: t) x - line p q y) with ((spline1 q (r :: t) x - snd q) + (snd q - line p q y)) by ring.
    eapply Rle_trans; [apply Rabs_triang|].
    rewrite (Rabs_right (fst q - y)) in K1 by lra. rewrite (Rabs_right (x - fst q)) in K2 by lra. rewrite (Rabs_right (x - y)) by lra. lra.
  - apply G.
Qed.

Lemma line_mono : forall p q x y, fst p < fst q -> snd p <= snd q -> x <= y -> line p q x <= line p q y.
Proof.
  intros p q x y H S Hx. pose proof (line_diff p q y x H) as E.
  assert (0 <= (line p q y - line p q x) * (fst q - fst p)) by (rewrite E; apply Rmult_le_pos; lra). nra.
Qed.

Lemma spline_mono : forall t p x y, t <> [] -> ascending (map fst (p :: t)) -> (forall a b, next_to (p :: t) a b -> snd a <= snd b) ->
  x <= y -> spline1 p t x <= spline1 p t y.
Proof.
  induction t as [|q t IH]; intros p x y Ne A S Hxy; [congruence|].
  assert (Hpq : fst p < fst q) by (eapply ascending_head; exact A).
  assert (Spq : snd p <= snd q) by (apply S; exists [], t; reflexivity).
  destruct t as [|r t]; [apply line_mono; auto|].
  assert (G : forall x y, x <= y -> spline1 q (r :: t) x <= spline1 q (r :: t) y).
  { intros a b Hab. apply IH; [discriminate|eapply ascending_tail; exact A| |exact Hab]. intros c d N. apply S. apply next_more. exact N. }
  assert (M : spline1 q (r :: t) (fst q) = snd q).
  { rewrite spline_first; [|eapply ascending_tail; exact A|].
    - apply line_left. eapply ascending_head. eapply ascending_tail. exact A.
    - apply Rlt_le. eapply ascending_head. eapply ascending_tail. exact A. }
  rewrite !spline_step.
  destruct (Rltb x (fst q)) eqn:Ex, (Rltb y (fst q)) eqn:Ey; rewrite ?ltb_true, ?ltb_false in *.
  - apply line_mono; auto.
  - apply Rle_trans with (snd q).
    + rewrite <- (line_right p q Hpq). apply line_mono; auto. lra.
    + rewrite <- M. apply G. lra.
  - lra.
  - apply G. lra.
Qed.

(** ** Accepted tables *)

Lemma law_inv : forall xs ys f, linear_law xs ys = Ok f -> List.length xs = List.length ys /\ ascending xs /\
  exists p t, t <> [] /\ combine xs ys = p :: t /\ f = spline1 p t /\ map fst (p :: t) = xs.
Proof.
  intros xs ys f H. unfold linear_law in H. destruct (Nat.eqb (List.length xs) (List.length ys)) eqn:E; [|discriminate H].
  apply Nat.eqb_eq in E. destruct (ascendingb xs) eqn:A; [|discriminate H]. apply ascendingb_ok in A.
  cbn [negb] in H. split; [auto|]. split; [auto|].
  assert (M : map fst (combine xs ys) = xs).
  { clear - E. revert ys E. induction xs as [|x xs IH]; intros [|y ys] E; try discriminate E; [reflexivity|]. cbn. f_equal. apply IH. auto. }
  destruct (combine xs ys) as [|p [|q t]] eqn:Ec; try discriminate H. injection H as <-.
  exists p, (q :: t). split; [discriminate|]. split; [reflexivity|]. split; [reflexivity|exact M].
Qed.

Lemma law_accepts : forall xs ys, (exists f, linear_law xs ys = Ok f) <-> List.length xs = List.length ys /\ (2 <= List.length xs)%nat /\ ascending xs.
Proof.
  intros xs ys. split.
  - intros (f & H). apply law_inv in H as (E & A & p & t & Ne & Ec & _ & M). split; [auto|]. split; [|auto].
    rewrite <- M. destruct t; [congruence|]. cbn. lia.
  - intros (E & L & A). unfold linear_law. rewrite (proj2 (Nat.eqb_eq _ _) E). cbn [negb]. rewrite (proj2 (ascendingb_ok _) A). cbn [negb].
    destruct xs as [|x [|x' xs]]; cbn in L; try lia. destruct ys as [|y [|y' ys]]; try discriminate E. cbn [combine]. eauto.
Qed.

Theorem law_between : forall xs ys f a b s, linear_law xs ys = Ok f -> next_to (combine xs ys) a b -> 0 <= s <= 1 ->
  f ((1 - s) * fst a + s * fst b) = (1 - s) * snd a + s * snd b.
Proof.
  intros xs ys f a b s H N Hs. apply law_inv in H as (_ & A & p & t & Ne & Ec & -> & M). rewrite Ec in N. rewrite <- M in A.
  assert (Hab : fst a < fst b).
  { destruct N as (u & v & E). apply (A (map fst u) (fst a) (fst b) (map fst v)). rewrite E, map_app. reflexivity. }
  rewrite (spline_between t p a b); [|exact A|exact N|nra].
  unfold line. field. lra.
Qed.

Lemma next_of_row : forall (rows : list (R * R)) r, In r rows -> (2 <= List.length rows)%nat -> (exists b, next_to rows r b) \/ (exists a, next_to rows a r).
Proof.
  intros rows r H L. apply in_split in H as (u & v & ->). destruct v as [|b v].
  - right. destruct u as [|c u] using rev_ind; [cbn in L; lia|]. exists c, u, []. rewrite <- app_assoc. reflexivity.
  - left. exists b, u, v. reflexivity.
Qed.

Theorem law_through : forall xs ys f i x y, linear_law xs ys = Ok f -> nth_error xs i = Some x -> nth_error ys i = Some y -> f x = y.
Proof.
  intros xs ys f i x y H Hx Hy.
  assert (L : (2 <= List.length xs)%nat) by (apply (law_accepts xs ys); eauto).
  assert (E : List.length xs = List.length ys) by (apply (law_accepts xs ys); eauto).
  assert (Hr : In (x, y) (combine xs ys)).
  { clear - Hx Hy. revert xs ys Hx Hy. induction i as [|i IH]; intros [|a xs] [|b ys] Hx Hy; try discriminate; cbn in *.
    - left. congruence.
    - right. eauto. }
  assert (Lc : (2 <= List.length (combine xs ys))%nat) by (rewrite combine_length; lia).
  destruct (next_of_row _ _ Hr Lc) as [(b & N)|(a & N)].
  - pose proof (law_between xs ys f (x, y) b 0 H N ltac:(lra)) as K. cbn [fst snd] in K.
    replace ((1 - 0) * x + 0 * fst b) with x in K by ring. rewrite K. ring.
  - pose proof (law_between xs ys f a (x, y) 1 H N ltac:(lra)) as K. cbn [fst snd] in K.
    replace ((1 - 1) * fst a + 1 * x) with x in K by ring. rewrite K. ring.
Qed.

Theorem law_below : forall xs ys f a b r x, linear_law xs ys = Ok f -> combine xs ys = a :: b :: r -> x <= fst a ->
  (f x - snd a) * (fst b - fst a) = (snd b - snd a) * (x - fst a).
Proof.
  intros xs ys f a b r x H E Hx. apply law_inv in H as (_ & A & p & t & Ne & Ec & -> & M). rewrite Ec in E. injection E as -> ->.
  rewrite <- M in A. assert (Hab : fst a < fst b) by (eapply ascending_head; exact A).
  rewrite spline_first; [|exact A|lra]. rewrite <- (line_left a b Hab) at 1. apply line_diff. auto.
Qed.

Theorem law_above : forall xs ys f u a b x, linear_law xs ys = Ok f -> combine xs ys = u ++ [a; b] -> fst b <= x ->
  (f x - snd b) * (fst b - fst a) = (snd b - snd a) * (x - fst b).
Proof.
  intros xs ys f u a b x H E Hx. apply law_inv in H as (_ & A & p & t & Ne & Ec & -> & M). rewrite Ec in E.
  rewrite <- M in A. assert (Hab : fst a < fst b).
  { apply (A (map fst u) (fst a) (fst b) []). rewrite E, map_app. reflexivity. }
  rewrite (spline_beyond t p a b); [|exact A|eauto|exact Hx]. rewrite <- (line_right a b Hab) at 1. apply line_diff. auto.
Qed.

Theorem law_steep : forall xs ys f L, linear_law xs ys = Ok f ->
  (forall a b, next_to (combine xs ys) a b -> Rabs (snd b - snd a) <= L * (fst b - fst a)) ->
  forall x y, Rabs (f x - f y) <= L * Rabs (x - y).
Proof.
  intros xs ys f L H S x y. apply law_inv in H as (_ & A & p & t & Ne & Ec & -> & M). rewrite <- M in A. rewrite Ec in S.
  apply spline_lip; auto.
Qed.

Theorem law_mono : forall xs ys f, linear_law xs ys = Ok f -> (forall a b, next_to (combine xs ys) a b -> snd a <= snd b) ->
  forall x y, x <= y -> f x <= f y.
Proof.
  intros xs ys f H S x y Hxy. apply law_inv in H as (_ & A & p & t & Ne & Ec & -> & M). rewrite <- M in A. rewrite Ec in S.
  apply spline_mono; auto.
Qed.

(** Every place inside the table is between two rows. *)
Lemma inside : forall t p x, t <> [] -> ascending (map fst (p :: t)) -> fst p <= x -> (exists r, In r (p :: t) /\ x <= fst r) ->
  exists a b, next_to (p :: t) a b /\ fst a <= x <= fst b.
Proof.
  induction t as [|q t IH]; intros p x Ne A Hp (r & Hr & Hx); [congruence|].
  destruct (Rle_dec x (fst q)) as [Hq|Hq].
  - exists p, q. split; [exists [], t; reflexivity|lra].
  - destruct t as [|s t].
    + destruct Hr as [<-|[<-|[]]]; [|lra]. pose proof (ascending_head _ _ _ A). lra.
    + destruct (IH q x) as (a & b & N & Hab); [discriminate|eapply ascending_tail; exact A|lra| |].
      * destruct Hr as [<-|Hr]; [|exists r; auto]. pose proof (ascending_head _ _ _ A). lra.
      * exists a, b. split; [apply next_more; exact N|exact Hab].
Qed.

Theorem law_range : forall xs ys f lo hi x, linear_law xs ys = Ok f -> (forall y, In y ys -> lo <= y <= hi) ->
  (exists a, In a xs /\ a <= x) -> (exists b, In b xs /\ x <= b) -> lo <= f x <= hi.
Proof.
  intros xs ys f lo up x H S (a0 & Ha & Hax) (b0 & Hb & Hxb). pose proof H as H0. apply law_inv in H as (E & A & p & t & Ne & Ec & -> & M).
  pose proof A as A2. rewrite <- M in A.
  assert (Hp : fst p <= x).
  { rewrite <- M in Ha. destruct Ha as [<-|Ha]; [auto|]. pose proof (ascending_first _ _ _ A Ha). cbn in *. lra. }
  destruct (inside t p x Ne A Hp) as (a & b & N & Hab).
  { rewrite <- M in Hb. apply in_map_iff in Hb as (r & <- & Hr). eauto. }
  rewrite (spline_between t p a b x A N Hab).
  assert (Hlt : fst a < fst b).
  { destruct N as (u & v & En). apply (A (map fst u) (fst a) (fst b) (map fst v)). rewrite En, map_app. reflexivity. }
  assert (Hy : forall r, In r (p :: t) -> lo <= snd r <= up).
  { intros r Hr. rewrite <- Ec in Hr. destruct r as [rx ry]. apply in_combine_r in Hr. apply S. auto. }
  assert (Ia : In a (p :: t)) by (destruct N as (u & v & ->); apply in_app_iff; right; left; auto).
  assert (Ib : In b (p :: t)) by (destruct N as (u & v & ->); apply in_app_iff; right; right; left; auto).
  pose proof (Hy a Ia). pose proof (Hy b Ib).
  set (s := (x - fst a) / (fst b - fst a)).
  assert (Hs : 0 <= s <= 1).
  { unfold s. split.
    - apply Rmult_le_pos; [lra|]. apply Rlt_le, Rinv_0_lt_compat. lra.
    - apply (Rmult_le_reg_r (fst b - fst a)); [lra|]. unfold Rdiv. rewrite Rmult_assoc, Rinv_l by lra. lra. }
  unfold line. fold s. nra.
Qed.

(** ** Fitted laws *)

Lemma deviation_cons : forall f r rows, deviation f (r :: rows) = (f (fst r) - snd r) * (f (fst r) - snd r) + deviation f rows.
Proof. reflexivity. Qed.

Lemma deviation_pos : forall f rows, 0 <= deviation f rows.
Proof. intros f rows. induction rows as [|r rows IH]; [unfold deviation; cbn; lra|]. rewrite deviation_cons. pose proof (Rle_0_sqr (f (fst r) - snd r)). unfold Rsqr in *. lra. Qed.

Lemma deviation_zero : forall f rows, deviation f rows <= 0 -> forall r, In r rows -> f (fst r) = snd r.
Proof.
  intros f rows. induction rows as [|r rows IH]; intros H q Hq; [destruct Hq|]. rewrite deviation_cons in H.
  pose proof (Rle_0_sqr (f (fst r) - snd r)) as K. unfold Rsqr in K. pose proof (deviation_pos f rows) as K2.
  destruct Hq as [<-|Hq].
  - assert ((f (fst r) - snd r) * (f (fst r) - snd r) = 0) by lra. apply Rmult_integral in H0. lra.
  - apply IH; auto. lra.
Qed.

Theorem fitted : forall fit func xs ys law ps0 g0, least_squares fit func xs ys -> func_law fit func xs ys = Ok law ->
  (forall x, func x ps0 = Ok (g0 x)) -> (forall r, In r (combine xs ys) -> g0 (fst r) = snd r) ->
  forall r, In r (combine xs ys) -> law (fst r) = Ok (snd r).
Proof.
  intros fit func xs ys law ps0 g0 HF H G0 T r Hr. unfold func_law in H. destruct (fit func xs ys) as [ps|e] eqn:E; [|discriminate H].
  cbn [rbind] in H. assert (law = fun x => func x ps) by congruence. subst law. clear H.
  destruct (HF _ E) as (g & G & M). specialize (M ps0 g0 G0). rewrite G. f_equal.
  apply (deviation_zero g (combine xs ys)); [|auto].
  eapply Rle_trans; [exact M|]. clear - T. induction (combine xs ys) as [|q rows IH]; [unfold deviation; cbn; lra|]. rewrite deviation_cons.
  rewrite (T q) by (left; auto). specialize (IH (fun r K => T r (or_intror K))). lra.
Qed.

(** ** swim.cpp *)

Lemma list_set_length : forall A (l : list A) k v, List.length (list_set l k v) = List.length l.
Proof. induction l as [|x l IH]; intros [|k] v; cbn; auto. Qed.

Lemma list_set_app : forall A (a : list A) x b v, list_set (a ++ x :: b) (List.length a) v = a ++ v :: b.
Proof. induction a as [|y a IH]; intros x b v; cbn; [reflexivity|]. f_equal. apply IH. Qed.

Lemma add_at_app : forall a x b v, add_at (a ++ x :: b) (List.length a) v = Ok (a ++ (x + v) :: b).
Proof.
  intros a x b v. unfold add_at. rewrite nth_error_app2 by lia. rewrite Nat.sub_diag. cbn [nth_error]. rewrite list_set_app. reflexivity.
Qed.

Lemma hi_loop_ok : forall b1 b2 b3 r2 r3 a1 a2 a3, List.length b2 = List.length b1 -> List.length b3 = List.length b1 ->
  List.length a2 = List.length a1 -> List.length a3 = List.length a1 ->
  hi_loop (List.length b1) (List.length a1) (a1 ++ b1) (a2 ++ b2 ++ r2) (a3 ++ b3 ++ r3) =
  Ok (a1 ++ map (fun x => x + 1) b1, a2 ++ map (fun x => x + 2) b2 ++ r2, a3 ++ map (fun x => x + 3) b3 ++ r3).
Proof.
  induction b1 as [|x1 b1 IH]; intros [|x2 b2] [|x3 b3] r2 r3 a1 a2 a3 L2 L3 M2 M3; try discriminate.
  - cbn. rewrite !app_nil_r. reflexivity.
  - cbn [List.length hi_loop app map]. rewrite add_at_app. cbn [rbind]. rewrite <- M2 at 1. rewrite add_at_app. cbn [rbind]. rewrite <- M3 at 1. rewrite add_at_app. cbn [rbind].
    specialize (IH b2 b3 r2 r3 (a1 ++ [x1 + 1]) (a2 ++ [x2 + 2]) (a3 ++ [x3 + 3])).
    rewrite <- !app_assoc in IH. cbn [app] in IH. 
    replace (List.length (a1 ++ [x1 + 1])) with (S (List.length a1)) in IH by (rewrite app_length; cbn; lia).
    apply IH; rewrite ?app_length; cbn in *; lia.
Qed.

Theorem hi_ok : forall a1 a2 a3 r2 r3, List.length a2 = List.length a1 -> List.length a3 = List.length a1 ->
  hi a1 (a2 ++ r2) (a3 ++ r3) = Ok (map (fun x => x + 1) a1, map (fun x => x + 2) a2 ++ r2, map (fun x => x + 3) a3 ++ r3).
Proof. intros a1 a2 a3 r2 r3 L2 L3. unfold hi. exact (hi_loop_ok a1 a2 a3 r2 r3 [] [] [] L2 L3 eq_refl eq_refl). Qed.

Lemma add_at_len : forall a i v b, add_at a i v = Ok b -> List.length b = List.length a /\ (i < List.length a)%nat.
Proof.
  intros a i v b H. unfold add_at in H. destruct (nth_error a i) eqn:E; [|discriminate H].
  assert (b = list_set a i (r + v)) by congruence. subst b. rewrite list_set_length. split; [auto|]. apply nth_error_Some. congruence.
Qed.

Lemma hi_loop_len : forall k i a1 a2 a3 r, hi_loop k i a1 a2 a3 = Ok r -> (0 < k)%nat -> (i + k <= List.length a2)%nat /\ (i + k <= List.length a3)%nat.
Proof.
  induction k as [|k IH]; intros i a1 a2 a3 r H Hk; [lia|]. cbn [hi_loop] in H.
  destruct (add_at a1 i 1) as [b1|e] eqn:E1; [|discriminate H]. cbn [rbind] in H.
  destruct (add_at a2 i 2) as [b2|e] eqn:E2; [|discriminate H]. cbn [rbind] in H.
  destruct (add_at a3 i 3) as [b3|e] eqn:E3; [|discriminate H]. cbn [rbind] in H.
  apply add_at_len in E2 as [L2 K2]. apply add_at_len in E3 as [L3 K3].
  destruct k as [|k]; [lia|]. apply IH in H; lia.
Qed.

Theorem hi_short : forall a1 a2 a3, (List.length a2 < List.length a1 \/ List.length a3 < List.length a1)%nat -> exists e, hi a1 a2 a3 = Raise e.
Proof.
  intros a1 a2 a3 H. destruct (hi a1 a2 a3) as [r|e] eqn:E; [|eauto]. unfold hi in E. apply hi_loop_len in E; lia.
Qed.
