(** Reasoning rules for the monad. *)

From Coq Require Import ZArith NArith Ascii String Bool Lia List Permutation.
From Verif Require Import Py PyLemmas Heap.
Import ListNotations.
Open Scope list_scope.

Section Rules.
  Context {F : FloatOps}.

  Lemma upd_same : forall A (m : nat -> A) k v, upd m k v k = v.
  Proof. intros. unfold upd. rewrite Nat.eqb_refl. auto. Qed.

  Lemma upd_other : forall A (m : nat -> A) k v j, j <> k -> upd m k v j = m j.
  Proof. intros. unfold upd. destruct (Nat.eqb_spec j k); congruence. Qed.

  Lemma bind_run : forall A B (m : M A) (k : A -> M B) h a h1,
    m h = (Ok a, h1) -> bind m k h = k a h1.
  Proof. intros. unfold bind. rewrite H. auto. Qed.

  Lemma bind_raise : forall A B (m : M A) (k : A -> M B) h e h1,
    m h = (Raise e, h1) -> bind m k h = (Raise e, h1).
  Proof. intros. unfold bind. rewrite H. auto. Qed.

  Lemma bind_gets : forall A B (f : heap -> A) (k : A -> M B) h,
    bind (gets f) k h = k (f h) h.
  Proof. reflexivity. Qed.

  Lemma bind_modify : forall B (f : heap -> heap) (k : unit -> M B) h,
    bind (modify f) k h = k tt (f h).
  Proof. reflexivity. Qed.

  Lemma bind_ret : forall A B (a : A) (k : A -> M B) h, bind (ret a) k h = k a h.
  Proof. reflexivity. Qed.

  Lemma bind_lift_ok : forall A B (a : A) (k : A -> M B) h, bind (lift (Ok a)) k h = k a h.
  Proof. reflexivity. Qed.

  Lemma bind_assoc : forall A B C (m : M A) (k : A -> M B) (l : B -> M C) h,
    bind (bind m k) l h = bind m (fun a => bind (k a) l) h.
  Proof. intros. unfold bind. destruct (m h) as [[a|e] h']; auto. Qed.

  Lemma bind_inv : forall A B (m : M A) (k : A -> M B) h b h2,
    bind m k h = (Ok b, h2) -> exists a h1, m h = (Ok a, h1) /\ k a h1 = (Ok b, h2).
  Proof.
    intros A B m k h b h2 H. unfold bind in H.
    destruct (m h) as [[a|e] h1]; [eauto|discriminate].
  Qed.

  (** Total correctness of a loop by an invariant over the processed prefix. *)
  Lemma for_each_ok : forall A (l : list A) (body : A -> M unit) (I : list A -> heap -> Prop) h,
    I [] h ->
    (forall done x rest h1, l = done ++ x :: rest -> I done h1 ->
       exists h2, body x h1 = (Ok tt, h2) /\ I (done ++ [x]) h2) ->
    exists h', for_each l body h = (Ok tt, h') /\ I l h'.
  Proof.
    intros A l body I h H0 Hs.
    assert (G : forall rest done h1, l = done ++ rest -> I done h1 ->
              exists h', for_each rest body h1 = (Ok tt, h') /\ I l h').
    { induction rest as [|x rest IH]; intros done h1 El Hd.
      - rewrite app_nil_r in El. subst. exists h1. split; auto.
      - destruct (Hs done x rest h1 El Hd) as (h2 & E2 & H2).
        destruct (IH (done ++ [x]) h2) as (h3 & E3 & H3).
        { rewrite <- app_assoc. auto. }
        { auto. }
        exists h3. split; auto. cbn [for_each]. rewrite (bind_run _ _ _ _ _ _ _ E2). auto. }
    apply (G l [] h); auto.
  Qed.

  (** Partial correctness of a loop. *)
  Lemma for_each_inv : forall A (l : list A) (body : A -> M unit) (I : list A -> heap -> Prop) h h',
    for_each l body h = (Ok tt, h') ->
    I [] h ->
    (forall done x rest h1 h2, l = done ++ x :: rest -> I done h1 ->
       body x h1 = (Ok tt, h2) -> I (done ++ [x]) h2) ->
    I l h'.
  Proof.
    intros A l body I h h' Hr H0 Hs.
    assert (G : forall rest done h1, l = done ++ rest -> I done h1 ->
              for_each rest body h1 = (Ok tt, h') -> I l h').
    { induction rest as [|x rest IH]; intros done h1 El Hd Hf.
      - rewrite app_nil_r in El. subst. inv Hf. auto.
      - cbn [for_each] in Hf. apply bind_inv in Hf as ([] & h2 & E & Hf).
        apply (IH (done ++ [x]) h2); auto.
        + rewrite <- app_assoc. auto.
        + eapply Hs; eauto. }
    apply (G l [] h); auto.
  Qed.

  Lemma for_each_ext : forall A (l : list A) (b1 b2 : A -> M unit),
    (forall x h, In x l -> b1 x h = b2 x h) -> forall h, for_each l b1 h = for_each l b2 h.
  Proof.
    induction l as [|x l IH]; intros b1 b2 H h; auto.
    cbn [for_each]. unfold bind. rewrite H by (left; auto).
    destruct (b2 x h) as [[[]|e] h']; auto. apply IH. intros; apply H; right; auto.
  Qed.

  Lemma for_each_app : forall A (l1 l2 : list A) (b : A -> M unit) h,
    for_each (l1 ++ l2) b h = bind (for_each l1 b) (fun _ => for_each l2 b) h.
  Proof.
    induction l1 as [|x l1 IH]; intros l2 b h; [reflexivity|].
    cbn [app for_each]. rewrite bind_assoc. unfold bind at 1 2.
    destruct (b x h) as [[[]|e] h']; auto.
  Qed.
End Rules.
