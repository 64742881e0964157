(** Proofs about the number of remeshing steps. *)

From Coq Require Import ZArith Reals Bool Lra Lia List Permutation Sorted.
From Verif Require Import Py PyLemmas Geom GeomSpec GeomProofs CloudProofs GeomMore Remesh RemeshSpec RemeshProofs.
Import ListNotations.
Open Scope R_scope.

Lemma Int_part_iff : forall x n, (Int_part x + 1 <= n)%Z <-> x < IZR n.
Proof.
  intros x n. destruct (base_Int_part x) as (H1 & H2). split.
  - intros H. apply IZR_le in H. rewrite plus_IZR in H. lra.
  - intros H. assert (K : IZR (Int_part x) < IZR n) by lra. apply lt_IZR in K. lia.
Qed.

Lemma trunc_nonneg : forall x, 0 <= x -> (0 <= trunc x)%Z /\ trunc x = Int_part x.
Proof.
  intros x H. unfold trunc. replace (Rleb 0 x) with true by (symmetry; apply Rleb_true; auto). split; auto.
  pose proof (proj2 (Int_part_iff x (Int_part x + 1)%Z) ). destruct (base_Int_part x) as (H1 & H2).
  assert (K : IZR (-1) < IZR (Int_part x)) by lra. apply lt_IZR in K. lia.
Qed.

Lemma local_iff : forall o g s f k n, 0 <= f_hi s f -> 0 < min_side (get_triangle g s f) -> 0 < nsteps_hi_side_fact o ->
  local_nsteps o g s f = Ok k -> ((n < k)%Z <-> too_fast o g s n f).
Proof.
  intros o g s f k n H M F E. unfold local_nsteps in E. set (m := min_side (get_triangle g s f)) in *.
  assert (P : 0 < m * nsteps_hi_side_fact o) by (apply Rmult_lt_0_compat; auto).
  rewrite rdiv_runs in E by lra. cbn [rbind] in E. injection E as <-.
  set (q := f_hi s f / (m * nsteps_hi_side_fact o)).
  assert (Q : 0 <= q) by (apply Rmult_le_pos; auto; apply Rlt_le, Rinv_0_lt_compat; auto).
  rewrite (proj2 (trunc_nonneg q Q)). pose proof (Int_part_iff q n) as I. unfold too_fast. fold m.
  assert (Hq : f_hi s f = q * (m * nsteps_hi_side_fact o)) by (unfold q; field; split; apply Rgt_not_eq; lra).
  rewrite Hq. split.
  - intros K. assert (IZR n <= q) by (apply Rnot_lt_le; intros C; apply I in C; lia).
    replace (nsteps_hi_side_fact o * m * IZR n) with (IZR n * (m * nsteps_hi_side_fact o)) by ring.
    apply Rmult_le_compat_r; lra.
  - intros K. assert (~ (Int_part q + 1 <= n)%Z); [|lia]. rewrite I. intros C.
    assert (IZR n * (m * nsteps_hi_side_fact o) <= q * (m * nsteps_hi_side_fact o)).
    { replace (IZR n * (m * nsteps_hi_side_fact o)) with (nsteps_hi_side_fact o * m * IZR n) by ring. auto. }
    apply Rmult_le_reg_r in H0; lra.
Qed.

(** Sorting. *)
Lemma zinsert_perm : forall x l, Permutation (zinsert x l) (x :: l).
Proof.
  induction l as [|y l IH]; cbn; auto. destruct (Z.leb x y); auto. rewrite IH. apply perm_swap.
Qed.
Lemma zsort_perm : forall l, Permutation (zsort l) l.
Proof. induction l as [|x l IH]; cbn; auto. rewrite zinsert_perm. auto. Qed.
Lemma zinsert_sorted : forall x l, StronglySorted Z.le l -> StronglySorted Z.le (zinsert x l).
Proof.
  induction l as [|y l IH]; intros H; cbn; [repeat constructor|]. apply StronglySorted_inv in H. destruct H as (H1 & H2).
  destruct (Z.leb_spec x y).
  - constructor; [constructor; auto|]. constructor; auto. eapply Forall_impl; [|exact H2]. cbn. intros. lia.
  - constructor; auto. eapply Permutation_Forall; [symmetry; apply zinsert_perm|]. constructor; auto. lia.
Qed.
Lemma zsort_sorted : forall l, StronglySorted Z.le (zsort l).
Proof. induction l as [|x l IH]; cbn; [constructor|]. apply zinsert_sorted. auto. Qed.

Lemma sorted_app : forall (R : Z -> Z -> Prop) l1 l2, StronglySorted R l1 -> StronglySorted R l2 ->
  (forall x y, In x l1 -> In y l2 -> R x y) -> StronglySorted R (l1 ++ l2).
Proof.
  induction l1 as [|a l1 IH]; intros l2 H1 H2 H; cbn; auto. apply StronglySorted_inv in H1. destruct H1 as (H1 & F).
  constructor; [apply IH; auto; intros; apply H; [right|]; auto|]. apply Forall_forall. intros x Hx. apply in_app_or in Hx.
  destruct Hx as [Hx|Hx]; [rewrite Forall_forall in F; auto|apply H; [left|]; auto].
Qed.

Lemma rev_sorted : forall l, StronglySorted Z.le l -> StronglySorted Z.ge (rev l).
Proof.
  induction l as [|x l IH]; intros H; cbn; [constructor|]. apply StronglySorted_inv in H. destruct H as (H & F).
  apply sorted_app; auto; [repeat constructor|]. intros a b Ha [<-|[]]. apply in_rev in Ha. rewrite Forall_forall in F.
  specialize (F a Ha). lia.
Qed.

Definition above (n : Z) (l : list Z) : nat := length (filter (fun x => Z.ltb n x) l).

Lemma above_perm : forall n l l', Permutation l l' -> above n l = above n l'.
Proof.
  intros n l l' P. unfold above. induction P; cbn; auto.
  - destruct (Z.ltb n x); cbn; auto.
  - destruct (Z.ltb n x), (Z.ltb n y); cbn; auto.
  - congruence.
Qed.

Lemma above_bound : forall n l k x, StronglySorted Z.ge l -> nth_error l k = Some x -> (x <= n)%Z -> (above n l <= k)%nat.
Proof.
  intros n l. induction l as [|a l IH]; intros k x S E H; [destruct k; discriminate|].
  apply StronglySorted_inv in S. destruct S as (S & F). unfold above. cbn. destruct k as [|k].
  - injection E as ->. destruct (Z.ltb_spec n x); [lia|].
    assert (Z0 : filter (fun y => Z.ltb n y) l = []); [|rewrite Z0; cbn; lia].
    clear IH S. induction l as [|b l IHl]; auto. apply Forall_inv in F as Fb. apply Forall_inv_tail in F. cbn.
    destruct (Z.ltb_spec n b); [lia|]. auto.
  - specialize (IH k x S E H). unfold above in IH. destruct (Z.ltb n a); cbn; lia.
Qed.

Lemma above_reach : forall n l k, StronglySorted Z.ge l -> (above n l <= k)%nat -> forall x, nth_error l k = Some x -> (x <= n)%Z.
Proof.
  intros n l. induction l as [|a l IH]; intros k S H x E; [destruct k; discriminate|].
  apply StronglySorted_inv in S. destruct S as (S & F). unfold above in H. cbn in H. destruct (Z.ltb_spec n a).
  - cbn in H. destruct k as [|k]; [lia|]. apply (IH k S); auto. unfold above. lia.
  - destruct k as [|k].
    + injection E as <-. auto.
    + cbn in E. rewrite Forall_forall in F. specialize (F x (nth_error_In _ _ E)). lia.
Qed.

Lemma first_fit_ok : forall mx l y, first_fit mx l = Some y -> (y <= mx)%Z /\ exists k, nth_error l k = Some y.
Proof.
  induction l as [|x l IH]; intros y H; cbn in H; [discriminate|]. destruct (Z.leb_spec x mx).
  - injection H as <-. split; auto. exists O. auto.
  - apply IH in H. destruct H as (H1 & k & Hk). split; auto. exists (S k). auto.
Qed.

Lemma above_mono : forall n m l, (n <= m)%Z -> (above m l <= above n l)%nat.
Proof.
  intros n m l H. unfold above. induction l as [|x l IH]; cbn; auto.
  destruct (Z.ltb_spec m x), (Z.ltb_spec n x); cbn; lia.
Qed.

Lemma selected_above : forall o g s n fs l bad,
  (forall f, In f fs -> 0 <= f_hi s f /\ 0 < min_side (get_triangle g s f)) -> 0 < nsteps_hi_side_fact o ->
  rmap (local_nsteps o g s) fs = Ok l -> selected (too_fast o g s n) fs bad -> length bad = above n l.
Proof.
  intros o g s n fs. induction fs as [|f fs IH]; intros l bad H F E S; cbn in E.
  - injection E as <-. inversion S. reflexivity.
  - destruct (local_nsteps o g s f) as [k|] eqn:Ek; [|discriminate]. cbn [rbind] in E.
    destruct (rmap _ fs) as [ks|] eqn:Er; [|discriminate]. cbn [rbind] in E. injection E as <-.
    destruct (H f (or_introl eq_refl)) as (H1 & H2). pose proof (local_iff o g s f k n H1 H2 F Ek) as I.
    assert (IH' : forall b, selected (too_fast o g s n) fs b -> length b = above n ks).
    { intros b Sb. apply IH; auto. intros; apply H; right; auto. }
    unfold above. cbn [filter]. inversion S; subst.
    + apply I in H4. destruct (Z.ltb_spec n k); [|lia]. cbn. f_equal. apply IH'; auto.
    + destruct (Z.ltb_spec n k); [exfalso; apply H4, I; auto|]. apply IH'; auto.
Qed.

Lemma py_get_nat : forall A (l : list A) k x, (0 <= k)%Z -> py_get l k = Ok x -> nth_error l (Z.to_nat k) = Some x.
Proof.
  intros A l k x H E. unfold py_get, py_index in E. destruct (Z.leb_spec 0 k); [|lia].
  destruct (Z.ltb_spec k (Z.of_nat (length l))); cbn in E.
  - destruct (nth_error l (Z.to_nat k)); [injection E as ->; auto|discriminate].
  - discriminate.
Qed.

Lemma nth_error_firstn : forall A (l : list A) k i, (i < k)%nat -> nth_error (firstn k l) i = nth_error l i.
Proof.
  induction l as [|x l IH]; intros [|k] [|i] H; cbn; auto; try lia. apply IH. lia.
Qed.

(** C48: bounds. *)
Theorem nsteps_bounds : forall o g s n, calculate_nsteps o g s = Ok n -> (nsteps_min o <= n <= nsteps_max o)%Z.
Proof.
  intros o g s n H. unfold calculate_nsteps in H. destruct (Z.ltb_spec (nsteps_max o) (nsteps_min o)); [discriminate|].
  destruct (rmap _ _) as [l|]; [|discriminate]. cbn [rbind] in H. destruct (py_get _ _) as [x|]; [|discriminate]. cbn [rbind] in H.
  set (k := if Z.ltb (nsteps_max o) x then _ else _) in H.
  assert (K : (k <= nsteps_max o)%Z).
  { unfold k. destruct (Z.ltb _ _); [lia|]. destruct (first_fit _ _) eqn:E; [|lia]. apply first_fit_ok in E. tauto. }
  clearbody k. destruct (Z.ltb_spec k (nsteps_min o)); injection H as <-; lia.
Qed.

Theorem nsteps_refused : forall o g s, (nsteps_max o < nsteps_min o)%Z -> calculate_nsteps o g s = Raise EException.
Proof. intros o g s H. unfold calculate_nsteps. destruct (Z.ltb_spec (nsteps_max o) (nsteps_min o)); [auto|lia]. Qed.

(** C48: the condition holds for all faces but the allowed part. *)
Theorem nsteps_enough : forall o g s n bad_max bad,
  (forall f, In f (faces g) -> 0 <= f_hi s f /\ 0 < min_side (get_triangle g s f)) -> 0 < nsteps_hi_side_fact o ->
  0 <= nsteps_ignore_part o ->
  calculate_nsteps o g s = Ok n ->
  selected (too_fast o g s (nsteps_max o)) (faces g) bad_max ->
  INR (length bad_max) <= nsteps_ignore_part o * INR (length (faces g)) ->
  selected (too_fast o g s n) (faces g) bad ->
  INR (length bad) <= nsteps_ignore_part o * INR (length (faces g)).
Proof.
  intros o g s n bm b H F P E Sm Hm Sb. unfold calculate_nsteps in E.
  destruct (Z.ltb_spec (nsteps_max o) (nsteps_min o)); [discriminate|].
  destruct (rmap _ _) as [l|] eqn:El; [|discriminate]. cbn [rbind] in E.
  pose proof (selected_above o g s _ _ l bm H F El Sm) as Lm. pose proof (selected_above o g s _ _ l b H F El Sb) as Lb.
  set (lna := rev (zsort l)) in *.
  assert (Pm : Permutation lna l) by (unfold lna; rewrite <- Permutation_rev; apply zsort_perm).
  assert (S : StronglySorted Z.ge lna) by (apply rev_sorted, zsort_sorted).
  rewrite <- (above_perm _ _ _ Pm) in Lm. rewrite <- (above_perm _ _ _ Pm) in Lb.
  assert (Ln : length lna = length (faces g)).
  { rewrite (Permutation_length Pm). clear -El. revert l El. induction (faces g) as [|f r IH]; intros l E; cbn in E.
    - injection E as <-. auto.
    - destruct (local_nsteps o g s f); [|discriminate]. cbn [rbind] in E. destruct (rmap _ r); [|discriminate]. cbn [rbind] in E.
      injection E as <-. cbn. f_equal. auto. }
  rewrite Ln in E. set (y := INR (length (faces g)) * nsteps_ignore_part o) in *.
  assert (Y : 0 <= y) by (apply Rmult_le_pos; auto; apply pos_INR).
  destruct (trunc_nonneg y Y) as (T1 & T2). set (k := trunc y) in *.
  assert (KY : forall m : nat, (m <= Z.to_nat k)%nat <-> INR m <= y).
  { intros m. rewrite INR_IZR_INZ. destruct (Int_part_iff y (Z.of_nat m)) as (I1 & I2). split.
    - intros Hk. apply Rnot_lt_le. intros C. apply I2 in C. lia.
    - intros Hk. assert (~ (Int_part y + 1 <= Z.of_nat m)%Z) by (intros C; apply I1 in C; lra). lia. }
  replace (nsteps_ignore_part o * INR (length (faces g))) with y in * by (unfold y; ring).
  apply KY in Hm. apply KY. rewrite Lm in Hm. rewrite Lb.
  destruct (py_get lna k) as [x|] eqn:Ex; [|discriminate]. cbn [rbind] in E. apply py_get_nat in Ex; auto.
  pose proof (above_reach _ _ _ S Hm x Ex) as Hx. destruct (Z.ltb_spec (nsteps_max o) x); [lia|].
  set (z := match first_fit _ _ with Some y => y | None => _ end) in E.
  assert (Hz : (above z lna <= Z.to_nat k)%nat).
  { unfold z. destruct (first_fit _ _) as [y'|] eqn:Ef; auto. apply first_fit_ok in Ef. destruct Ef as (_ & i & Ei).
    assert (Li : (i < Z.to_nat k)%nat).
    { assert (K : (i < length (firstn (Z.to_nat k) lna))%nat) by (apply nth_error_Some; rewrite Ei; discriminate).
      rewrite firstn_length in K. lia. }
    rewrite nth_error_firstn in Ei by auto. pose proof (above_bound y' lna i y' S Ei (Z.le_refl _)). lia. }
  destruct (Z.ltb_spec z (nsteps_min o)); injection E as <-; auto.
  pose proof (above_mono z (nsteps_min o) lna ltac:(lia)). lia.
Qed.

(** The number is found whenever the data makes sense. *)
Theorem nsteps_found : forall o g s,
  (nsteps_min o <= nsteps_max o)%Z -> faces g <> [] -> (forall f, In f (faces g) -> 0 < min_side (get_triangle g s f)) ->
  0 < nsteps_hi_side_fact o -> 0 <= nsteps_ignore_part o < 1 -> exists n, calculate_nsteps o g s = Ok n.
Proof.
  intros o g s M N H F P. unfold calculate_nsteps. destruct (Z.ltb_spec (nsteps_max o) (nsteps_min o)); [lia|].
  assert (E : exists l, rmap (local_nsteps o g s) (faces g) = Ok l /\ length l = length (faces g)).
  { revert H. clear N. induction (faces g) as [|f r IH]; intros H; [exists []; auto|].
    destruct IH as (l & El & Ll); [intros; apply H; right; auto|]. cbn [rmap]. unfold local_nsteps at 1.
    pose proof (H f (or_introl eq_refl)) as Hf. rewrite rdiv_runs by (apply Rgt_not_eq, Rmult_lt_0_compat; auto).
    cbn [rbind]. rewrite El. cbn [rbind]. eexists. split; [reflexivity|]. cbn. auto. }
  destruct E as (l & -> & Ll). cbn [rbind].
  assert (Ln : length (rev (zsort l)) = length (faces g)) by (rewrite rev_length, (Permutation_length (zsort_perm l)); auto).
  rewrite Ln. set (y := INR (length (faces g)) * nsteps_ignore_part o).
  assert (L0 : 0 < INR (length (faces g))) by (apply lt_0_INR; destruct (faces g); [contradiction|cbn; lia]).
  assert (Y : 0 <= y) by (apply Rmult_le_pos; lra). destruct (trunc_nonneg y Y) as (T1 & T2).
  assert (T3 : (trunc y < Z.of_nat (length (faces g)))%Z).
  { rewrite T2. assert (y < IZR (Z.of_nat (length (faces g)))); [|apply Int_part_iff in H1; lia].
    rewrite <- INR_IZR_INZ. unfold y. rewrite <- (Rmult_1_r (INR (length (faces g)))) at 2. apply Rmult_lt_compat_l; tauto. }
  unfold py_get, py_index. rewrite Ln. destruct (Z.leb_spec 0 (trunc y)); [|lia].
  destruct (Z.ltb_spec (trunc y) (Z.of_nat (length (faces g)))); [|lia]. cbn [andb].
  destruct (nth_error (rev (zsort l)) (Z.to_nat (trunc y))) eqn:En; [cbn [rbind]; eauto|].
  apply nth_error_None in En. lia.
Qed.
