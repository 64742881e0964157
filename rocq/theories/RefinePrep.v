(** Proofs about the preparation of the list of intersections in refine.py. *)

From Coq Require Import ZArith NArith Bool Lia List Permutation Relations Sorted.
From Verif Require Import Py PyLemmas Heap Refine RefineSpec.
Import ListNotations.
Open Scope list_scope.
Open Scope nat_scope.

Section Prep.
  Context {F : FloatOps}.

  (** The stable sort. *)
  Lemma insert_perm : forall x l, Permutation (insert_entry x l) (x :: l).
  Proof.
    intros x l. induction l as [|y l IH]; cbn; auto. destruct (fst x <=? fst y); auto.
    rewrite IH. constructor.
  Qed.

  Lemma sort_perm : forall l, Permutation (sort_entries l) l.
  Proof. induction l as [|x l IH]; cbn; auto. rewrite insert_perm. auto. Qed.

  Definition ordered (l : list entry) : Prop := StronglySorted (fun x y => fst x <= fst y) l.

  Lemma insert_ordered : forall x l, ordered l -> ordered (insert_entry x l).
  Proof.
    intros x l H. induction H as [|y l H IH Hy]; cbn.
    - constructor; constructor.
    - destruct (fst x <=? fst y) eqn:E.
      + apply Nat.leb_le in E. constructor; [constructor; auto|]. constructor; auto. rewrite Forall_forall in *. intros z Hz. specialize (Hy z Hz). lia.
      + apply Nat.leb_gt in E. constructor; auto. rewrite Forall_forall in *. intros z Hz.
        apply (Permutation_in _ (insert_perm x l)) in Hz as [<-|Hz]; [lia|auto].
  Qed.

  Lemma sort_ordered : forall l, ordered (sort_entries l).
  Proof. induction l as [|x l IH]; cbn; [constructor|apply insert_ordered; auto]. Qed.

  (** The loop that joins the elements of one triangle. *)
  Lemma put_same : forall (s : lists) k v, put_list s k v k = v.
  Proof. intros. unfold put_list. rewrite Nat.eqb_refl. auto. Qed.

  Lemma put_grows : forall (s : lists) k w i p, In p (s i) -> In p (put_list s k (s k ++ w) i).
  Proof. intros s k w i p H. unfold put_list. destruct (Nat.eqb_spec i k) as [->|D]; auto. apply in_or_app; auto. Qed.

  Lemma merge_grows : forall l done last s m s', merge_loop done last l s = (m, s') -> forall i p, In p (s i) -> In p (s' i).
  Proof.
    induction l as [|x l IH]; intros done last s m s' E i p Hp; cbn in E.
    - injection E as _ <-. auto.
    - destruct (negb (fst x =? fst last)); [exact (IH _ _ _ _ _ E i p Hp)|]. eapply IH; [exact E|]. apply put_grows. auto.
  Qed.

  Lemma merge_frame : forall l done last s m s', merge_loop done last l s = (m, s') ->
    forall k, (forall t, ~ In (t, k) (last :: l)) -> s' k = s k.
  Proof.
    induction l as [|x l IH]; intros done last s m s' E k Hk; cbn in E.
    - injection E as _ <-. auto.
    - destruct (negb (fst x =? fst last)).
      + rewrite (IH _ _ _ _ _ E k); auto. intros t K. apply (Hk t). right. auto.
      + rewrite (IH _ _ _ _ _ E k).
        * unfold put_list. destruct (Nat.eqb_spec k (snd last)) as [->|D]; auto. exfalso. apply (Hk (fst last)). left. destruct last; auto.
        * intros t [K|K]; apply (Hk t); [left; auto|right; right; auto].
  Qed.

  Lemma merge_within : forall (P : pt -> Prop) l done last s m s', merge_loop done last l s = (m, s') ->
    (forall t k p, In (t, k) (last :: l) -> In p (s k) -> P p) ->
    forall t k p, In (t, k) (last :: l) -> In p (s' k) -> P p.
  Proof.
    intros P l. induction l as [|x l IH]; intros done last s m s' E H t k p Hk Hp; cbn in E.
    - injection E as _ <-. eapply H; eauto.
    - destruct (negb (fst x =? fst last)).
      + destruct (in_dec Nat.eq_dec k (map snd (x :: l))) as [J|J].
        * apply in_map_iff in J as ([t' k'] & Ek & Hx). cbn in Ek. subst k'.
          apply (IH _ _ _ _ _ E ltac:(intros; eapply H; [right|]; eauto) t' k p); auto.
        * rewrite (merge_frame _ _ _ _ _ _ E k) in Hp; [eapply H; eauto|]. intros t' K. apply J. apply in_map_iff. exists (t', k). auto.
      + assert (H' : forall t k p, In (t, k) (last :: l) -> In p (put_list s (snd last) (s (snd last) ++ s (snd x)) k) -> P p).
        { intros t' k' p' Hk' Hp'. unfold put_list in Hp'. destruct (Nat.eqb_spec k' (snd last)) as [->|D].
          - apply in_app_or in Hp' as [K|K].
            + apply (H (fst last) (snd last)); auto. left. destruct last; auto.
            + apply (H (fst x) (snd x)); auto. right. left. destruct x; auto.
          - apply (H t' k'); auto. destruct Hk' as [K|K]; [left; auto|right; right; auto]. }
        destruct Hk as [Hk|[Hk|Hk]].
        * apply (IH _ _ _ _ _ E H' t k p); auto. left. auto.
        * subst x. cbn [fst snd] in *.
          destruct (in_dec Nat.eq_dec k (map snd (last :: l))) as [J|J].
          -- apply in_map_iff in J as ([t' k'] & Ek & Hx). cbn in Ek. subst k'. apply (IH _ _ _ _ _ E H' t' k p); auto.
          -- rewrite (merge_frame _ _ _ _ _ _ E k) in Hp by (intros t' K; apply J; apply in_map_iff; exists (t', k); auto).
             unfold put_list in Hp. destruct (Nat.eqb_spec k (snd last)) as [->|D]; [exfalso; apply J; left; auto|].
             eapply H; [right; left; reflexivity|auto].
        * apply (IH _ _ _ _ _ E H' t k p); auto. right. auto.
  Qed.

  Lemma merge_shape : forall l done last s m s', merge_loop done last l s = (m, s') -> ordered (last :: l) ->
    exists tail, m = done ++ last :: tail /\ StronglySorted lt (map fst (last :: tail)) /\ incl tail l /\
      forall t k, In (t, k) (last :: l) -> exists k', In (t, k') (last :: tail) /\ forall p, In p (s k) -> In p (s' k').
  Proof.
    induction l as [|x l IH]; intros done last s m s' E O; cbn in E.
    - injection E as <- <-. exists []. split; auto. split; [repeat constructor|]. split; [intros y []|].
      intros t k [K|[]]. exists k. split; [left|]; auto.
    - apply StronglySorted_inv in O as [O Ho]. rewrite Forall_forall in Ho. pose proof (Ho x ltac:(left; auto)) as Hx. cbn in Hx.
      destruct (negb (fst x =? fst last)) eqn:Ex.
      + apply negb_true_iff, Nat.eqb_neq in Ex.
        destruct (IH _ _ _ _ _ E O) as (tail & -> & St & Ic & Hc). exists (x :: tail).
        split; [rewrite <- app_assoc; auto|]. split; [|split].
        * constructor; auto. apply Forall_forall. intros y Hy. cbn in Hy. destruct Hy as [<-|Hy]; [lia|].
          apply StronglySorted_inv in St as [_ St]. rewrite Forall_forall in St. specialize (St y Hy). lia.
        * intros y [<-|Hy]; [left|right]; auto.
        * intros t k [K|K].
          -- exists k. subst last. split; [left; auto|]. intros p Hp. eapply merge_grows; eauto.
          -- destruct (Hc t k K) as (k' & K1 & K2). exists k'. split; auto. right. auto.
      + apply negb_false_iff, Nat.eqb_eq in Ex.
        destruct (IH _ _ _ _ _ E) as (tail & -> & St & Ic & Hc).
        { apply StronglySorted_inv in O as [O _]. constructor; auto. apply Forall_forall. intros y Hy. apply Ho. right. auto. }
        exists tail. split; auto. split; auto. split; [intros y Hy; right; auto|].
        intros t k [K|[K|K]].
        * destruct (Hc t k (or_introl K)) as (k' & K1 & K2). exists k'. split; auto. intros p Hp. apply K2. apply put_grows. auto.
        * subst x. cbn [fst snd] in *. subst t. exists (snd last). split; [left; destruct last; auto|].
          intros p Hp. eapply merge_grows; [exact E|]. rewrite put_same. apply in_or_app. auto.
        * destruct (Hc t k (or_intror K)) as (k' & K1 & K2). exists k'. split; auto. intros p Hp. apply K2. apply put_grows. auto.
  Qed.

  (** Points close to their predecessors. *)
  Lemma far_In : forall G l prev p, In p (far_after G prev l) -> In p l.
  Proof. intros G. induction l as [|x l IH]; intros prev p H; cbn in *; auto. destruct (close G x prev); [right; eauto|]. destruct H; eauto. Qed.

  Lemma far_chain : forall G (P : pt -> Prop) l prev, P prev -> (forall p, In p l -> P p) -> forall p, In p l ->
    exists q, In q (prev :: far_after G prev l) /\ chained G P p q.
  Proof.
    intros G P. induction l as [|x l IH]; intros prev Pp H p Hp; [destruct Hp|].
    assert (Px : P x) by (apply H; left; auto). cbn.
    destruct (close G x prev) eqn:E.
    - assert (X : chained G P x prev) by (apply rt_step; auto).
      destruct Hp as [<-|Hp]; [exists prev; split; [left; auto|exact X]|].
      destruct (IH x Px ltac:(intros y Hy; apply H; right; auto) p Hp) as (q & [<-|Hq] & C).
      + exists prev. split; [left; auto|]. eapply rt_trans; eauto.
      + exists q. split; [right; auto|exact C].
    - destruct Hp as [<-|Hp]; [exists x; split; [right; left; auto|apply rt_refl]|].
      destruct (IH x Px ltac:(intros y Hy; apply H; right; auto) p Hp) as (q & Hq & C). exists q. split; [right; auto|exact C].
  Qed.

  Lemma f2_weaken : forall A B (P Q : A -> B -> Prop) l m, (forall x y, P x y -> Q x y) -> Forall2 P l m -> Forall2 Q l m.
  Proof. intros A B P Q l m H K. induction K; constructor; auto. Qed.

  Lemma thin_ok : forall G (P : pt -> Prop) (Sp : forall v, Permutation (srt G v) v) l s, (forall x, In x l -> s (snd x) <> []) ->
    (forall x p, In x l -> In p (s (snd x)) -> P p) ->
    exists m, thin_loop G l s = Ok m /\ map fst m = map fst l /\
      Forall2 (fun x y => snd y <> [] /\ (forall p, In p (snd y) -> In p (s (snd x))) /\
        forall p, In p (s (snd x)) -> exists q, In q (snd y) /\ chained G P p q) l m.
  Proof.
    intros G P Sp l. induction l as [|x l IH]; intros s Ne Hp.
    - exists []. cbn. auto.
    - assert (Q : forall i p, In p (put_list s (snd x) (srt G (s (snd x))) i) <-> In p (s i)).
      { intros i p. unfold put_list. destruct (Nat.eqb_spec i (snd x)) as [->|D]; [|tauto]. split; apply Permutation_in; [apply Sp|symmetry; apply Sp]. }
      cbn [thin_loop]. destruct (srt G (s (snd x))) as [|v vs] eqn:Ev.
      { exfalso. apply (Ne x ltac:(left; auto)). apply Permutation_nil. rewrite <- Ev. apply Sp. }
      assert (Iv : forall p, In p (v :: vs) <-> In p (s (snd x))).
      { intros p. rewrite <- Ev. split; apply Permutation_in; [apply Sp|symmetry; apply Sp]. }
      destruct (IH (put_list s (snd x) (v :: vs))) as (m & E & Ef & F2).
      + intros y Hy K. apply (Ne y ltac:(right; auto)). destruct (s (snd y)) as [|w ws] eqn:Es; auto.
        exfalso. assert (J : In w (put_list s (snd x) (v :: vs) (snd y))) by (apply Q; rewrite Es; left; auto). rewrite K in J. destruct J.
      + intros y p Hy K. apply Q in K. apply (Hp y p); auto. right. auto.
      + cbn [drop_close rbind]. rewrite E. cbn [rbind]. exists ((fst x, v :: far_after G v vs) :: m). split; [auto|]. split; [cbn; f_equal; auto|].
        constructor.
        * cbn [snd]. split; [discriminate|]. split.
          -- intros p [<-|K]; apply Iv; [left; auto|right; eapply far_In; eauto].
          -- intros p K. apply Iv in K as [<-|K]; [exists v; split; [left; auto|apply rt_refl]|].
             assert (Px : forall q, In q (v :: vs) -> P q) by (intros q Hq; apply (Hp x q); [left; auto|apply Iv; auto]).
             apply (far_chain G P vs v); [apply Px; left; auto|intros q Hq; apply Px; right; auto|auto].
        * eapply f2_weaken; [|exact F2]. intros y z (K1 & K2 & K3). split; auto. split.
          -- intros p Hq. apply Q. auto.
          -- intros p Hq. apply K3. apply Q. auto.
  Qed.

  Theorem prepare_ok : forall G l s, (forall v, Permutation (srt G v) v) -> l <> [] -> (forall t k, In (t, k) l -> s k <> []) ->
    exists m, prepare G l s = Ok m /\ StronglySorted lt (map fst m) /\ (forall t, In t (map fst m) <-> In t (map fst l)) /\
      forall t v, In (t, v) m -> v <> [] /\ (forall p, In p v -> exists t', reported l s t' p) /\
        forall p, reported l s t p -> exists q, In q v /\ chained G (fun x => exists t', reported l s t' x) p q.
  Proof.
    intros G l s Sp Hl Ne. pose proof (sort_perm l) as Pl. pose proof (sort_ordered l) as Ol. unfold prepare.
    destruct (sort_entries l) as [|x r] eqn:El.
    { exfalso. apply Hl. apply Permutation_nil. auto. }
    destruct (merge_loop [] x r s) as [m s'] eqn:Em.
    destruct (merge_shape _ _ _ _ _ _ Em Ol) as (tail & Et & St & Ic & Hc). cbn [app] in Et. subst m.
    set (P := fun p => exists t', reported l s t' p).
    assert (Hm : incl (x :: tail) (x :: r)) by (intros y [<-|Hy]; [left|right]; auto).
    assert (Wi : forall t k p, In (t, k) (x :: r) -> In p (s' k) -> P p).
    { apply (merge_within P _ _ _ _ _ _ Em). intros t k p Hk Hp. exists t, k. split; auto. eapply Permutation_in; eauto. }
    destruct (thin_ok G P Sp (x :: tail) s') as (m & E & Ef & F2).
    - intros [t k] Hy K. cbn in K. pose proof (Ne t k ltac:(eapply Permutation_in; [exact Pl|apply Hm; auto])) as N.
      destruct (s k) as [|w ws] eqn:Es; [congruence|].
      assert (J : In w (s' k)) by (eapply merge_grows; [exact Em|rewrite Es; left; auto]). rewrite K in J. destruct J.
    - intros [t k] p Hy Hp. apply (Wi t k p); auto.
    - exists m. split; [auto|]. rewrite Ef. split; [auto|]. split.
      + intros t. split.
        * intros K. apply (Permutation_in _ (Permutation_map fst Pl)). apply in_map_iff in K as (y & <- & Hy). apply in_map. auto.
        * intros K. apply (Permutation_in _ (Permutation_map fst (Permutation_sym Pl))) in K. apply in_map_iff in K as ([t' k] & <- & Hy).
          destruct (Hc t' k Hy) as (k' & K1 & _). apply in_map_iff. exists (t', k'). auto.
      + intros t v Hv.
        assert (Hv' : exists k, In (t, k) (x :: tail) /\ v <> [] /\ (forall p, In p v -> In p (s' k)) /\
          forall p, In p (s' k) -> exists q, In q v /\ chained G P p q).
        { clear - F2 Hv Ef. revert Ef Hv. induction F2 as [|[a k] [b w] l1 l2 H F2 IH]; intros Ef Hv; [destruct Hv|]. cbn in Ef. injection Ef as E0 Ef. subst b.
          destruct Hv as [K|K]; [injection K as -> ->; exists k; split; [left; auto|exact H]|].
          destruct (IH Ef K) as (k' & K1 & K2). exists k'. split; [right; auto|auto]. }
        destruct Hv' as (k & Hk & V1 & V2 & V3). split; [auto|]. split.
        * intros p Hp. apply (Wi t k p); auto.
        * intros p (k1 & H1 & H2). apply (Permutation_in _ (Permutation_sym Pl)) in H1.
          destruct (Hc t k1 H1) as (k2 & K2 & K3).
          assert (k2 = k).
          { clear - St Hk K2. revert St Hk K2. generalize (x :: tail). intros y. induction y as [|z y IH]; intros St Hk K2; [destruct Hk|].
            cbn in St. apply StronglySorted_inv in St as [St Lt]. rewrite Forall_forall in Lt.
            destruct Hk as [->|Hk], K2 as [K2|K2].
            - congruence.
            - specialize (Lt (fst (t, k2)) (in_map fst _ _ K2)). cbn in Lt. lia.
            - subst z. specialize (Lt (fst (t, k)) (in_map fst _ _ Hk)). cbn in Lt. lia.
            - auto. }
          subst k2. apply V3. auto.
  Qed.

  Theorem prepare_none : forall G s, prepare G [] s = Raise EIndexError.
  Proof. reflexivity. Qed.
End Prep.
