(** Facts about the sorted list of signs and its middle element. *)

From Coq Require Import ZArith NArith Bool Lia List Permutation Sorted.
From Verif Require Import Py PyLemmas Heap HeapLemmas GridModel GridSpec AssignProofs.
Import ListNotations.
Open Scope list_scope.

Section Sort.
  Context {F : FloatOps}.
  Hypothesis Ho : order_ok.

  Definition leq (x y : val) : Prop := vltb y x = false.

  Lemma insert_perm : forall x l, Permutation (insert_val x l) (x :: l).
  Proof.
    intros x l. induction l as [|y l IH]; cbn; auto.
    destruct (vltb y x); auto.
    eapply perm_trans; [apply perm_skip; exact IH|]. constructor.
  Qed.

  Lemma sort_perm : forall l, Permutation (sort_vals l) l.
  Proof.
    induction l as [|x l IH]; cbn; auto.
    eapply perm_trans; [apply insert_perm|]. constructor. auto.
  Qed.

  Lemma leq_of_lt : forall x y, vltb x y = true -> leq x y.
  Proof.
    intros x y H. unfold leq. destruct (vltb y x) eqn:E; auto.
    pose proof (o_trans Ho _ _ _ H E). rewrite (o_irr Ho) in H0. discriminate.
  Qed.

  Lemma leq_trans : forall x y z, leq x y -> leq y z -> leq x z.
  Proof.
    unfold leq. intros x y z H1 H2. destruct (vltb z x) eqn:E; auto.
    destruct (o_weak Ho _ _ y E); congruence.
  Qed.

  Lemma insert_sorted : forall x l, StronglySorted leq l -> StronglySorted leq (insert_val x l).
  Proof.
    intros x l H. induction H as [|y l Hs IH Hall]; cbn.
    - constructor; constructor.
    - destruct (vltb y x) eqn:E.
      + constructor; auto. apply Forall_forall. intros z Hz.
        apply (Permutation_in _ (insert_perm x l)) in Hz. destruct Hz as [<-|Hz].
        * apply leq_of_lt. auto.
        * rewrite Forall_forall in Hall. auto.
      + constructor; [constructor; auto|]. constructor; [exact E|].
        apply Forall_forall. intros z Hz. rewrite Forall_forall in Hall.
        eapply leq_trans; [exact E|]. auto.
  Qed.

  Lemma sort_sorted : forall l, StronglySorted leq (sort_vals l).
  Proof. induction l; cbn; [constructor|]. apply insert_sorted. auto. Qed.

  Lemma sorted_after : forall l k b, StronglySorted leq l -> nth_error l k = Some b ->
    Forall (leq b) (skipn k l).
  Proof.
    intros l k b H. revert k. induction H as [|y l Hs IH Hall]; intros [|k] Hk; cbn in Hk; try discriminate.
    - inv Hk. cbn. constructor; [apply (o_irr Ho)|auto].
    - apply IH. auto.
  Qed.

  Lemma sorted_before : forall l k b, StronglySorted leq l -> nth_error l k = Some b ->
    Forall (fun x => leq x b) (firstn k l).
  Proof.
    intros l k b H. revert k. induction H as [|y l Hs IH Hall]; intros [|k] Hk; cbn in Hk; try discriminate.
    - constructor.
    - cbn. constructor; [|apply IH; auto]. rewrite Forall_forall in Hall. apply Hall.
      eapply nth_error_In; eauto.
  Qed.

  Lemma filter_length_perm : forall A (p : A -> bool) l l', Permutation l l' ->
    length (filter p l) = length (filter p l').
  Proof.
    intros A p l l' H. induction H; cbn; auto.
    - destruct (p x); cbn; auto.
    - destruct (p x), (p y); cbn; auto.
    - congruence.
  Qed.

  Lemma filter_map_length : forall A B (g : A -> B) p l,
    length (filter p (map g l)) = length (filter (fun x => p (g x)) l).
  Proof. intros. induction l as [|x l IH]; cbn; auto. destruct (p (g x)); cbn; auto. Qed.

  Lemma filter_partition : forall A (p : A -> bool) l,
    length (filter p l) + length (filter (fun x => negb (p x)) l) = length l.
  Proof. intros. induction l as [|x l IH]; cbn; auto. destruct (p x); cbn; lia. Qed.

  Lemma filter_length_le' : forall A (p : A -> bool) l, length (filter p l) <= length l.
  Proof. intros. induction l as [|x l IH]; cbn; auto. destruct (p x); cbn; lia. Qed.

  (** The blade exists and at most half of the signs lie below it. *)
  Lemma blade_ok : forall h fn fs, fs <> [] ->
    exists b, blade_of h fn fs = Ok b /\
      length (filter (fun f => vltb (fn h f) b) fs) <= length fs / 2 /\
      (exists g, In g fs /\ fn h g = b).
  Proof.
    intros h fn fs Hne. unfold blade_of.
    set (l := sort_vals (map (fn h) fs)).
    assert (Hp : Permutation l (map (fn h) fs)) by apply sort_perm.
    assert (Hl : length l = length fs) by (rewrite (Permutation_length Hp); apply map_length).
    assert (Hlt : length l / 2 < length l).
    { apply Nat.div_lt; [|lia]. rewrite Hl. destruct fs; [congruence|cbn; lia]. }
    destruct (nth_error l (length l / 2)) as [b|] eqn:Eb; [|apply nth_error_None in Eb; lia].
    exists b. rewrite (py_get_nat _ _ _ _ Eb). split; [auto|]. split.
    - rewrite <- (filter_map_length _ _ (fn h) (fun x => vltb x b)).
      rewrite <- (filter_length_perm _ _ _ _ Hp), <- Hl.
      pose proof (sort_sorted (map (fn h) fs)) as Hs. fold l in Hs.
      pose proof (sorted_after _ _ _ Hs Eb) as Hafter.
      rewrite <- (firstn_skipn (length l / 2) l) at 1. rewrite filter_app, app_length.
      rewrite (filter_nil_none _ _ (skipn (length l / 2) l)).
      2:{ intros x Hx. rewrite Forall_forall in Hafter. apply (Hafter x Hx). }
      cbn [length]. rewrite Nat.add_0_r.
      eapply Nat.le_trans; [|apply firstn_le_length].
      apply filter_length_le'.
    - assert (In b l) by (eapply nth_error_In; eauto).
      apply (Permutation_in _ Hp) in H. apply in_map_iff in H as (g & Eg & Hg). eauto.
  Qed.

  Lemma blade_distinct : forall h fn fs b, NoDup fs -> signs_differ (fn h) fs ->
    blade_of h fn fs = Ok b -> length (filter (fun f => vltb (fn h f) b) fs) = length fs / 2.
  Proof.
    intros h fn fs b Hnd Hd Hb.
    set (l := sort_vals (map (fn h) fs)).
    assert (Hp : Permutation l (map (fn h) fs)) by apply sort_perm.
    assert (Hl : length l = length fs) by (rewrite (Permutation_length Hp); apply map_length).
    unfold blade_of in Hb. fold l in Hb.
    assert (Eb : nth_error l (length l / 2) = Some b).
    { destruct (nth_error l (length l / 2)) as [b'|] eqn:E.
      - rewrite (py_get_nat _ _ _ _ E) in Hb. congruence.
      - exfalso. apply nth_error_None in E. clearbody l. destruct l as [|x l]; [discriminate|].
        pose proof (Nat.div_lt (length (x :: l)) 2 ltac:(cbn; lia) ltac:(lia)). lia. }
    rewrite <- (filter_map_length _ _ (fn h) (fun x => vltb x b)).
    rewrite <- (filter_length_perm _ _ _ _ Hp), <- Hl.
    pose proof (sort_sorted (map (fn h) fs)) as Hs. fold l in Hs.
    pose proof (sorted_after _ _ _ Hs Eb) as Hafter.
    pose proof (sorted_before _ _ _ Hs Eb) as Hbefore.
    assert (Hlt : length l / 2 < length l) by (apply nth_error_Some; congruence).
    rewrite <- (firstn_skipn (length l / 2) l) at 1. rewrite filter_app, app_length.
    rewrite (filter_nil_none _ _ (skipn (length l / 2) l)).
    2:{ intros x Hx. rewrite Forall_forall in Hafter. apply (Hafter x Hx). }
    rewrite (filter_all _ _ (firstn (length l / 2) l)).
    { rewrite firstn_length_le by lia. cbn. lia. }
    (* all earlier elements are strictly smaller: they come from other faces *)
    assert (Hstrict : ForallOrdPairs (fun x y => vltb x y = true \/ vltb y x = true) l).
    { assert (G : ForallOrdPairs (fun x y => vltb x y = true \/ vltb y x = true) (map (fn h) fs)).
      { clear -Hnd Hd. induction fs as [|f fs IH]; cbn; [constructor|]. inv Hnd. constructor.
        - apply Forall_forall. intros y Hy. apply in_map_iff in Hy as (g & <- & Hg).
          apply Hd; simpl; auto. intro; subst; auto.
        - apply IH; auto. intros a c Ha Hc. apply Hd; simpl; auto. }
      apply Permutation_sym in Hp. clear -G Hp.
      induction Hp.
      - constructor.
      - inv G. constructor; auto. eapply Permutation_Forall; eauto.
      - inv G. inv H2. inv H1. constructor; [constructor; auto; tauto|]. constructor; auto.
      - auto. }
    intros x Hx.
    assert (Hin : In b (skipn (length l / 2) l)).
    { clear -Eb. revert Eb. generalize (length l / 2) as k. induction l as [|a l IH]; intros [|k] H; cbn in *; try discriminate.
      - inv H. auto.
      - auto. }
    assert (Hxb : vltb x b = true \/ vltb b x = true).
    { clear -Hstrict Hx Hin. revert Hstrict Hx Hin. generalize (length l / 2) as k.
      induction l as [|a l IH]; intros [|k] Hs Hx Hin; cbn in *; try contradiction.
      inv Hs. destruct Hx as [<-|Hx]; [|eapply IH; eauto].
      rewrite Forall_forall in H1. apply H1.
      rewrite <- (firstn_skipn k l). apply in_or_app. auto. }
    destruct Hxb as [|Hbx]; auto.
    rewrite Forall_forall in Hbefore. specialize (Hbefore x Hx). unfold leq in Hbefore. congruence.
  Qed.
End Sort.
