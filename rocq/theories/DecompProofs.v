(** Proofs about zone linking and the assignment of faces to zones. *)

From Coq Require Import ZArith NArith Ascii String Bool Lia List Permutation.
From Verif Require Import Py PyLemmas Heap HeapLemmas GridModel GridSpec.
Import ListNotations.
Open Scope list_scope.

(* ------------------------------------------------------------------ *)
(** * Lists *)

Lemma NoDup_nth_inj : forall A (l : list A) i j x, NoDup l ->
  nth_error l i = Some x -> nth_error l j = Some x -> i = j.
Proof.
  intros A l i j x Hn Hi Hj. eapply NoDup_nth_error; eauto.
  - apply nth_error_Some. congruence.
  - congruence.
Qed.

Lemma In_nth : forall A (l : list A) x, In x l -> exists i, nth_error l i = Some x.
Proof. intros. apply In_nth_error; auto. Qed.

Lemma NoDup_snoc : forall A (l : list A) x, NoDup (l ++ [x]) <-> NoDup l /\ ~ In x l.
Proof.
  intros A l x. split.
  - intros H. apply NoDup_remove in H. rewrite app_nil_r in H. auto.
  - intros [H1 H2]. apply Permutation_NoDup with (l := x :: l).
    + change (x :: l) with ([x] ++ l). apply Permutation_app_comm.
    + constructor; auto.
Qed.

Lemma NoDup_app_inv : forall A (l1 l2 : list A), NoDup (l1 ++ l2) ->
  NoDup l1 /\ NoDup l2 /\ (forall x, In x l1 -> ~ In x l2).
Proof.
  induction l1 as [|a l1 IH]; intros l2 H; simpl in *.
  - split; [constructor|]. split; auto.
  - inv H. apply IH in H3 as (H3 & H4 & H5). split; [|split]; auto.
    + constructor; auto. intro. apply H2, in_or_app; auto.
    + intros x [->|Hx] Hi; [apply H2, in_or_app; auto|eapply H5; eauto].
Qed.

Lemma NoDup_app_intro : forall A (l1 l2 : list A), NoDup l1 -> NoDup l2 ->
  (forall x, In x l1 -> ~ In x l2) -> NoDup (l1 ++ l2).
Proof.
  induction l1 as [|a l1 IH]; intros l2 H1 H2 H3; simpl; auto.
  inv H1. constructor.
  - intro H. apply in_app_or in H as [H|H]; auto. eapply H3; eauto. left; auto.
  - apply IH; auto. intros x Hx. apply H3. right; auto.
Qed.

Lemma sublist_snoc_keep : forall A (p : A -> Prop) l l' x,
  sublist_of p l l' -> p x -> sublist_of p (l ++ [x]) (l' ++ [x]).
Proof.
  induction 1; intros; simpl.
  - apply sub_keep; auto. constructor.
  - apply sub_keep; auto.
  - apply sub_drop; auto.
Qed.

Lemma sublist_snoc_drop : forall A (p : A -> Prop) l l' x,
  sublist_of p l l' -> ~ p x -> sublist_of p (l ++ [x]) l'.
Proof.
  induction 1; intros; simpl.
  - apply sub_drop; auto. constructor.
  - apply sub_keep; auto.
  - apply sub_drop; auto.
Qed.

Lemma sublist_In : forall A (p : A -> Prop) l l' x,
  sublist_of p l l' -> (In x l' <-> In x l /\ p x).
Proof.
  induction 1; simpl.
  - tauto.
  - rewrite IHsublist_of. split; intros; intuition (subst; auto).
  - rewrite IHsublist_of. split; intros; intuition (subst; auto; tauto).
Qed.

Lemma sublist_NoDup : forall A (p : A -> Prop) l l',
  sublist_of p l l' -> NoDup l -> NoDup l'.
Proof.
  induction 1; intros Hn; auto.
  - inv Hn. constructor; auto. rewrite (sublist_In _ _ _ _ x H0). tauto.
  - inv Hn. auto.
Qed.

Lemma sublist_ext : forall A (p q : A -> Prop) l l',
  sublist_of p l l' -> (forall x, In x l -> (p x <-> q x)) -> sublist_of q l l'.
Proof.
  induction 1; intros Hx.
  - constructor.
  - apply sub_keep; [apply Hx; simpl; auto|]. apply IHsublist_of. intros; apply Hx; simpl; auto.
  - apply sub_drop; [rewrite <- Hx; simpl; auto|]. apply IHsublist_of. intros; apply Hx; simpl; auto.
Qed.

Lemma sublist_filter : forall A (p : A -> Prop) (b : A -> bool) l,
  (forall x, In x l -> (b x = true <-> p x)) -> sublist_of p l (filter b l).
Proof.
  induction l as [|x l IH]; intros H; simpl; [constructor|].
  destruct (b x) eqn:E.
  - apply sub_keep; [apply H; simpl; auto|]. apply IH. intros; apply H; simpl; auto.
  - apply sub_drop; [rewrite <- H by (simpl; auto); congruence|].
    apply IH. intros; apply H; simpl; auto.
Qed.

Lemma sublist_unique : forall A (p : A -> Prop) l l1 l2,
  sublist_of p l l1 -> sublist_of p l l2 -> l1 = l2.
Proof.
  intros A p l l1 l2 H1. revert l2. induction H1; intros l2 H2; inv H2; auto.
  - f_equal. auto.
  - tauto.
  - tauto.
Qed.

Section Decomp.
  Context {F : FloatOps}.

  (** The part of the heap untouched by link_nodes_and_edges_to_zones. *)
  Definition frameL (h : heap) :=
    (mesh h, (f_zone h, f_mark h), (z_name h, z_faces h, z_fixed h, next_z h), (g_name h, g_zones h)).

  Ltac frame := unfold frameL, mesh in *; cbn in *; congruence.

  Lemma frameL_fields : forall h h', frameL h' = frameL h ->
    n_faces h' = n_faces h /\ e_faces h' = e_faces h /\ f_zone h' = f_zone h /\
    g_zones h' = g_zones h /\ g_nodes h' = g_nodes h /\ g_edges h' = g_edges h /\
    g_faces h' = g_faces h /\ mesh h' = mesh h.
  Proof. intros h h' E. unfold frameL, mesh in *. inv E. repeat split; congruence. Qed.

  (* ---------------------------------------------------------------- *)
  (** ** set_zones_ids / reset_zones_ids *)

  Definition frameI (h : heap) := (frameL h, z_nodes h, z_edges h).

  Lemma set_zones_ids_from_ok : forall zs i h, NoDup zs ->
    exists h', set_zones_ids_from i zs h = (Ok tt, h') /\ frameI h' = frameI h /\
      (forall k z, nth_error zs k = Some z -> z_id h' z = Z.of_nat (i + k)) /\
      (forall z, ~ In z zs -> z_id h' z = z_id h z).
  Proof.
    induction zs as [|z zs IH]; intros i h Hn.
    - exists h. repeat split; auto. intros [|k] z H; discriminate.
    - inv Hn. cbn [set_zones_ids_from].
      destruct (IH (S i) (set_z_id h (upd (z_id h) z (Z.of_nat i)))) as (h' & E & Hf & Hk & Ho); auto.
      exists h'. split; [|split; [|split]].
      + rewrite bind_modify. auto.
      + rewrite Hf. reflexivity.
      + intros [|k] z' Hz; simpl in Hz.
        * inv Hz. rewrite Ho by auto. cbn. rewrite upd_same. f_equal. lia.
        * rewrite (Hk k z' Hz). f_equal. lia.
      + intros z' Hz. rewrite Ho by (simpl in Hz; tauto). cbn.
        apply upd_other. simpl in Hz. intuition.
  Qed.

  Lemma set_zones_ids_ok : forall h, NoDup (g_zones h) ->
    exists h', set_zones_ids h = (Ok tt, h') /\ frameI h' = frameI h /\ zone_ids_ok h'.
  Proof.
    intros h Hn. unfold set_zones_ids. rewrite bind_gets.
    destruct (set_zones_ids_from_ok (g_zones h) 0 h Hn) as (h' & E & Hf & Hk & _).
    exists h'. split; [auto|]. split; [auto|].
    intros i z Hz. assert (g_zones h' = g_zones h) by (unfold frameI, frameL in Hf; congruence).
    rewrite H in Hz. rewrite (Hk i z Hz). f_equal.
  Qed.

  Lemma reset_zones_ids_ok : forall h,
    exists h', reset_zones_ids h = (Ok tt, h') /\ frameI h' = frameI h /\
      (forall z, In z (g_zones h) -> z_id h' z = (-1)%Z).
  Proof.
    intros h. unfold reset_zones_ids. rewrite bind_gets.
    destruct (for_each_ok _ (g_zones h)
      (fun z => modify (fun h => set_z_id h (upd (z_id h) z (-1)%Z)))
      (fun done h1 => frameI h1 = frameI h /\ forall z, In z done -> z_id h1 z = (-1)%Z) h)
      as (h' & E & Hf & Hz).
    - split; auto. intros z [].
    - intros done x rest h1 _ [Hf Hz]. eexists. split; [reflexivity|]. split.
      + rewrite <- Hf. reflexivity.
      + intros z Hi. cbn. destruct (Nat.eq_dec z x) as [->|Hne].
        * apply upd_same.
        * rewrite upd_other by auto. apply Hz. apply in_app_or in Hi as [Hi|[Hi|[]]]; congruence.
    - exists h'. auto.
  Qed.

  (* ---------------------------------------------------------------- *)
  (** ** link_nodes_and_edges_to_zones *)

  (** All faces incident to the nodes and edges of the grid are in zones of
      the grid. *)
  Definition linkable (h : heap) : Prop :=
    NoDup (g_zones h) /\
    (forall n f, In n (g_nodes h) -> In f (n_faces h n) ->
       exists z, In z (g_zones h) /\ f_zone h f = Some z) /\
    (forall e f, In e (g_edges h) -> In f (e_faces h e) ->
       exists z, In z (g_zones h) /\ f_zone h f = Some z).

  Lemma zone_ids_of_ok : forall h fs, zone_ids_ok h ->
    (forall f, In f fs -> exists z, In z (g_zones h) /\ f_zone h f = Some z) ->
    exists ids, zone_ids_of h fs = Ok ids /\
      (forall i z, nth_error (g_zones h) i = Some z -> NoDup (g_zones h) ->
         (In (Z.of_nat i) ids <-> some_face_in h fs z)) /\
      (forall x, In x ids -> exists i z, x = Z.of_nat i /\ nth_error (g_zones h) i = Some z).
  Proof.
    intros h fs Hid Hz. induction fs as [|f fs IH].
    - exists []. split; [reflexivity|]. split.
      + intros i z Hi _. split; [intros []| intros (f & [] & _)].
      + intros x [].
    - destruct IH as (ids & E & H1 & H2); [intros; apply Hz; simpl; auto|].
      destruct (Hz f) as (z & Hin & Hfz); [simpl; auto|].
      apply In_nth in Hin as (k & Hk).
      exists (Z.of_nat k :: ids). split; [|split].
      + unfold zone_ids_of in *. cbn [rmap]. rewrite Hfz. cbn [rbind].
        rewrite (Hid k z Hk). rewrite E. reflexivity.
      + intros i z' Hi Hnd. simpl. rewrite (H1 i z' Hi Hnd). split.
        * intros [He|(g & Hg & Hgz)].
          -- apply Nat2Z.inj in He. subst i. assert (z' = z) by congruence. subst z'.
             exists f. simpl; auto.
          -- exists g. simpl; auto.
        * intros (g & [->|Hg] & Hgz).
          -- left. assert (z' = z) by congruence. subst z'. f_equal.
             eapply NoDup_nth_inj; eauto.
          -- right. exists g. auto.
      + intros x [<-|Hx]; [eauto|auto].
  Qed.

  Definition add_node_body (n : nat) (zid : Z) : M unit :=
    zs <- gets g_zones ;; z <- lift (py_get zs zid) ;; zone_add_node z n.

  Definition add_edge_body (e : nat) (zid : Z) : M unit :=
    zs <- gets g_zones ;; z <- lift (py_get zs zid) ;; zone_add_edge z e.

  Lemma add_nodes_inner : forall n ids h, NoDup ids -> NoDup (g_zones h) ->
    (forall x, In x ids -> exists i z, x = Z.of_nat i /\ nth_error (g_zones h) i = Some z) ->
    exists h', for_each ids (add_node_body n) h = (Ok tt, h') /\
      frameL h' = frameL h /\ z_edges h' = z_edges h /\ z_id h' = z_id h /\
      forall i z, nth_error (g_zones h) i = Some z ->
        z_nodes h' z = z_nodes h z ++ (if in_dec Z.eq_dec (Z.of_nat i) ids then [n] else []).
  Proof.
    intros n ids h Hnd Hnz Hids.
    destruct (for_each_ok _ ids (add_node_body n)
      (fun done h1 => frameL h1 = frameL h /\ z_edges h1 = z_edges h /\ z_id h1 = z_id h /\
        forall i z, nth_error (g_zones h) i = Some z ->
          z_nodes h1 z = z_nodes h z ++ (if in_dec Z.eq_dec (Z.of_nat i) done then [n] else [])) h)
      as (h' & E & HI).
    - repeat split; auto. intros i z _. destruct (in_dec Z.eq_dec (Z.of_nat i) []) as [[]|].
      rewrite app_nil_r. auto.
    - intros done x rest h1 El (Hf & He & Hi & Hz).
      destruct (Hids x) as (i & z & -> & Hiz); [rewrite El; apply in_or_app; simpl; auto|].
      assert (Ez : g_zones h1 = g_zones h) by (unfold frameL in Hf; congruence).
      eexists. split.
      { unfold add_node_body. rewrite bind_gets. rewrite Ez.
        rewrite (py_get_nat _ _ _ _ Hiz). rewrite bind_lift_ok. reflexivity. }
      split; [rewrite <- Hf; reflexivity|]. split; [auto|]. split; [auto|].
      intros j z' Hj. cbn.
      destruct (in_dec Z.eq_dec (Z.of_nat j) (done ++ [Z.of_nat i])) as [Hin|Hin].
      + apply in_app_or in Hin as [Hin|[Hin|[]]].
        * assert (z' <> z).
          { intro. subst z'. assert (i = j) by (eapply NoDup_nth_inj; eauto). subst j.
            rewrite El in Hnd. apply NoDup_remove_2 in Hnd. apply Hnd. apply in_or_app; auto. }
          rewrite upd_other by auto. rewrite (Hz j z' Hj).
          destruct (in_dec Z.eq_dec (Z.of_nat j) done); [auto|contradiction].
        * apply Nat2Z.inj in Hin. subst j. assert (z' = z) by congruence. subst z'.
          rewrite upd_same. rewrite (Hz i z Hiz).
          destruct (in_dec Z.eq_dec (Z.of_nat i) done) as [Hc|].
          -- exfalso. rewrite El in Hnd. apply NoDup_remove_2 in Hnd. apply Hnd. apply in_or_app; auto.
          -- rewrite app_nil_r. auto.
      + assert (z' <> z).
        { intro. subst z'. assert (i = j) by (eapply NoDup_nth_inj; eauto). subst j.
          apply Hin. apply in_or_app; simpl; auto. }
        rewrite upd_other by auto. rewrite (Hz j z' Hj).
        destruct (in_dec Z.eq_dec (Z.of_nat j) done); [|auto].
        exfalso. apply Hin. apply in_or_app; auto.
    - exists h'. auto.
  Qed.

  Lemma add_edges_inner : forall n ids h, NoDup ids -> NoDup (g_zones h) ->
    (forall x, In x ids -> exists i z, x = Z.of_nat i /\ nth_error (g_zones h) i = Some z) ->
    exists h', for_each ids (add_edge_body n) h = (Ok tt, h') /\
      frameL h' = frameL h /\ z_nodes h' = z_nodes h /\ z_id h' = z_id h /\
      forall i z, nth_error (g_zones h) i = Some z ->
        z_edges h' z = z_edges h z ++ (if in_dec Z.eq_dec (Z.of_nat i) ids then [n] else []).
  Proof.
    intros n ids h Hnd Hnz Hids.
    destruct (for_each_ok _ ids (add_edge_body n)
      (fun done h1 => frameL h1 = frameL h /\ z_nodes h1 = z_nodes h /\ z_id h1 = z_id h /\
        forall i z, nth_error (g_zones h) i = Some z ->
          z_edges h1 z = z_edges h z ++ (if in_dec Z.eq_dec (Z.of_nat i) done then [n] else [])) h)
      as (h' & E & HI).
    - repeat split; auto. intros i z _. destruct (in_dec Z.eq_dec (Z.of_nat i) []) as [[]|].
      rewrite app_nil_r. auto.
    - intros done x rest h1 El (Hf & He & Hi & Hz).
      destruct (Hids x) as (i & z & -> & Hiz); [rewrite El; apply in_or_app; simpl; auto|].
      assert (Ez : g_zones h1 = g_zones h) by (unfold frameL in Hf; congruence).
      eexists. split.
      { unfold add_edge_body. rewrite bind_gets. rewrite Ez.
        rewrite (py_get_nat _ _ _ _ Hiz). rewrite bind_lift_ok. reflexivity. }
      split; [rewrite <- Hf; reflexivity|]. split; [auto|]. split; [auto|].
      intros j z' Hj. cbn.
      destruct (in_dec Z.eq_dec (Z.of_nat j) (done ++ [Z.of_nat i])) as [Hin|Hin].
      + apply in_app_or in Hin as [Hin|[Hin|[]]].
        * assert (z' <> z).
          { intro. subst z'. assert (i = j) by (eapply NoDup_nth_inj; eauto). subst j.
            rewrite El in Hnd. apply NoDup_remove_2 in Hnd. apply Hnd. apply in_or_app; auto. }
          rewrite upd_other by auto. rewrite (Hz j z' Hj).
          destruct (in_dec Z.eq_dec (Z.of_nat j) done); [auto|contradiction].
        * apply Nat2Z.inj in Hin. subst j. assert (z' = z) by congruence. subst z'.
          rewrite upd_same. rewrite (Hz i z Hiz).
          destruct (in_dec Z.eq_dec (Z.of_nat i) done) as [Hc|].
          -- exfalso. rewrite El in Hnd. apply NoDup_remove_2 in Hnd. apply Hnd. apply in_or_app; auto.
          -- rewrite app_nil_r. auto.
      + assert (z' <> z).
        { intro. subst z'. assert (i = j) by (eapply NoDup_nth_inj; eauto). subst j.
          apply Hin. apply in_or_app; simpl; auto. }
        rewrite upd_other by auto. rewrite (Hz j z' Hj).
        destruct (in_dec Z.eq_dec (Z.of_nat j) done); [|auto].
        exfalso. apply Hin. apply in_or_app; auto.
    - exists h'. auto.
  Qed.

  Lemma link_ok : forall h, linkable h ->
    exists h', link_nodes_and_edges_to_zones h = (Ok tt, h') /\
      frameL h' = frameL h /\ zone_lists_ok h' /\
      (forall z, In z (g_zones h) -> z_id h' z = (-1)%Z).
  Proof.
    intros h (Hnz & Hn & He). unfold link_nodes_and_edges_to_zones.
    rewrite bind_gets.
    (* clearing *)
    destruct (for_each_ok _ (g_zones h)
      (fun z => modify (fun h => set_z_nodes h (upd (z_nodes h) z [])) ;;;
                modify (fun h => set_z_edges h (upd (z_edges h) z [])))
      (fun done h1 => frameL h1 = frameL h /\
         forall z, In z done -> z_nodes h1 z = [] /\ z_edges h1 z = []) h)
      as (h1 & E1 & F1 & C1).
    { split; auto. intros z []. }
    { intros done x rest h1 _ [Hf Hz]. eexists. split; [reflexivity|]. split.
      - rewrite <- Hf. reflexivity.
      - intros z Hi. cbn. destruct (Nat.eq_dec z x) as [->|Hne].
        + rewrite !upd_same. auto.
        + rewrite !upd_other by auto. apply Hz.
          apply in_app_or in Hi as [Hi|[Hi|[]]]; congruence. }
    rewrite (bind_run _ _ _ _ _ _ _ E1).
    pose proof (frameL_fields _ _ F1) as (Enf1 & Eef1 & Efz1 & Ez1 & Egn1 & Ege1 & Egf1 & Em1).
    (* ids *)
    destruct (set_zones_ids_ok h1) as (h2 & E2 & F2 & I2); [rewrite Ez1; auto|].
    rewrite (bind_run _ _ _ _ _ _ _ E2).
    assert (F2' : frameL h2 = frameL h) by (unfold frameI in F2; congruence).
    assert (Zn2 : z_nodes h2 = z_nodes h1) by (unfold frameI in F2; congruence).
    assert (Ze2 : z_edges h2 = z_edges h1) by (unfold frameI in F2; congruence).
    pose proof (frameL_fields _ _ F2') as (Enf2 & Eef2 & Efz2 & Ez2 & Egn2 & Ege2 & Egf2 & Em2).
    rewrite bind_gets.
    (* nodes *)
    destruct (for_each_ok _ (g_nodes h2) (fun n =>
        ids <- (fun h => (zone_ids_of h (n_faces h n), h)) ;;
        for_each (distinct Z.eq_dec ids) (add_node_body n))
      (fun done h3 => frameL h3 = frameL h /\ z_edges h3 = z_edges h2 /\ z_id h3 = z_id h2 /\
         forall z, In z (g_zones h) ->
           sublist_of (fun n => some_face_in h (n_faces h n) z) done (z_nodes h3 z)) h2)
      as (h3 & E3 & F3 & Ee3 & Ei3 & S3).
    { split; [auto|]. split; [auto|]. split; [auto|]. intros z Hz. rewrite Zn2.
      destruct (C1 z Hz) as [-> _]. constructor. }
    { intros done n rest h3 El (Hf & Hee & Hid & Hs).
      pose proof (frameL_fields _ _ Hf) as (Enf & Eef & Efz & Ez & Egn & Ege & Egf & Em).
      destruct (zone_ids_of_ok h3 (n_faces h3 n)) as (ids & Eids & Hin & Hrng).
      { intros i z Hi. rewrite Hid. apply I2. rewrite Ez2, <- Ez. auto. }
      { intros f Hf'. rewrite Ez, Efz. apply (Hn n).
        - rewrite <- Egn2, El. apply in_or_app; simpl; auto.
        - rewrite <- Enf. auto. }
      destruct (add_nodes_inner n (distinct Z.eq_dec ids) h3) as (h4 & E4 & F4 & Ee4 & Ei4 & S4).
      { apply NoDup_nodup. }
      { rewrite Ez; auto. }
      { intros x Hx. apply nodup_In in Hx. auto. }
      exists h4. split.
      { unfold bind at 1. rewrite Eids. exact E4. }
      split; [congruence|]. split; [congruence|]. split; [congruence|].
      intros z Hz. apply In_nth in Hz as (i & Hi). rewrite <- Ez in Hi.
      rewrite (S4 i z Hi).
      assert (Hiff : In (Z.of_nat i) (distinct Z.eq_dec ids) <-> some_face_in h (n_faces h n) z).
      { unfold distinct. rewrite nodup_In, (Hin i z Hi) by (rewrite Ez; auto).
        unfold some_face_in. rewrite Enf, Efz. tauto. }
      destruct (in_dec Z.eq_dec (Z.of_nat i) (distinct Z.eq_dec ids)) as [Hd|Hd].
      - apply sublist_snoc_keep; [|tauto]. apply Hs. rewrite <- Ez. eapply nth_error_In; eauto.
      - rewrite app_nil_r. apply sublist_snoc_drop; [|tauto].
        apply Hs. rewrite <- Ez. eapply nth_error_In; eauto. }
    match goal with |- context [bind (for_each (g_nodes h2) ?b) ?k h2] =>
      change (bind (for_each (g_nodes h2) b) k h2) with
       (bind (for_each (g_nodes h2) (fun n =>
        ids <- (fun h => (zone_ids_of h (n_faces h n), h)) ;;
        for_each (distinct Z.eq_dec ids) (add_node_body n))) k h2) end.
    rewrite (bind_run _ _ _ _ _ _ _ E3).
    pose proof (frameL_fields _ _ F3) as (Enf3 & Eef3 & Efz3 & Ez3 & Egn3 & Ege3 & Egf3 & Em3).
    rewrite bind_gets.
    (* edges *)
    destruct (for_each_ok _ (g_edges h3) (fun e =>
        ids <- (fun h => (zone_ids_of h (e_faces h e), h)) ;;
        for_each (distinct Z.eq_dec ids) (add_edge_body e))
      (fun done h4 => frameL h4 = frameL h /\ z_nodes h4 = z_nodes h3 /\ z_id h4 = z_id h2 /\
         forall z, In z (g_zones h) ->
           sublist_of (fun e => some_face_in h (e_faces h e) z) done (z_edges h4 z)) h3)
      as (h4 & E4 & F4 & En4 & Ei4 & S4).
    { split; [auto|]. split; [auto|]. split; [auto|]. intros z Hz. rewrite Ee3, Ze2.
      destruct (C1 z Hz) as [_ ->]. constructor. }
    { intros done n rest h4 El (Hf & Hee & Hid & Hs).
      pose proof (frameL_fields _ _ Hf) as (Enf & Eef & Efz & Ez & Egn & Ege & Egf & Em).
      destruct (zone_ids_of_ok h4 (e_faces h4 n)) as (ids & Eids & Hin & Hrng).
      { intros i z Hi. rewrite Hid. apply I2. rewrite Ez2, <- Ez. auto. }
      { intros f Hf'. rewrite Ez, Efz. apply (He n).
        - rewrite <- Ege3, El. apply in_or_app; simpl; auto.
        - rewrite <- Eef. auto. }
      destruct (add_edges_inner n (distinct Z.eq_dec ids) h4) as (h5 & E5 & F5 & Ee5 & Ei5 & S5).
      { apply NoDup_nodup. }
      { rewrite Ez; auto. }
      { intros x Hx. apply nodup_In in Hx. auto. }
      exists h5. split.
      { unfold bind at 1. rewrite Eids. exact E5. }
      split; [congruence|]. split; [congruence|]. split; [congruence|].
      intros z Hz. apply In_nth in Hz as (i & Hi). rewrite <- Ez in Hi.
      rewrite (S5 i z Hi).
      assert (Hiff : In (Z.of_nat i) (distinct Z.eq_dec ids) <-> some_face_in h (e_faces h n) z).
      { unfold distinct. rewrite nodup_In, (Hin i z Hi) by (rewrite Ez; auto).
        unfold some_face_in. rewrite Eef, Efz. tauto. }
      destruct (in_dec Z.eq_dec (Z.of_nat i) (distinct Z.eq_dec ids)) as [Hd|Hd].
      - apply sublist_snoc_keep; [|tauto]. apply Hs. rewrite <- Ez. eapply nth_error_In; eauto.
      - rewrite app_nil_r. apply sublist_snoc_drop; [|tauto].
        apply Hs. rewrite <- Ez. eapply nth_error_In; eauto. }
    match goal with |- context [bind (for_each (g_edges h3) ?b) ?k h3] =>
      change (bind (for_each (g_edges h3) b) k h3) with
       (bind (for_each (g_edges h3) (fun e =>
        ids <- (fun h => (zone_ids_of h (e_faces h e), h)) ;;
        for_each (distinct Z.eq_dec ids) (add_edge_body e))) k h3) end.
    rewrite (bind_run _ _ _ _ _ _ _ E4).
    (* reset *)
    destruct (reset_zones_ids_ok h4) as (h5 & E5 & F5 & R5).
    exists h5. split; [auto|].
    assert (F5' : frameL h5 = frameL h) by (unfold frameI in F5; congruence).
    split; [auto|].
    pose proof (frameL_fields _ _ F5') as (Enf5 & Eef5 & Efz5 & Ez5 & Egn5 & Ege5 & Egf5 & Em5).
    pose proof (frameL_fields _ _ F4) as (Enf4 & Eef4 & Efz4 & Ez4 & Egn4 & Ege4 & Egf4 & Em4).
    split.
    - intros z Hz. rewrite Ez5 in Hz. rewrite Egn5, Ege5, Enf5, Eef5.
      assert (Zn : z_nodes h5 = z_nodes h3) by (unfold frameI in F5; congruence).
      assert (Ze : z_edges h5 = z_edges h4) by (unfold frameI in F5; congruence).
      rewrite Zn, Ze. unfold some_face_in in *. rewrite Efz5.
      rewrite <- Egn2. rewrite <- Ege3. split; auto.
    - intros z Hz. apply R5. rewrite Ez4. auto.
  Qed.

  Lemma check_faces_ok : forall h,
    (forall f, In f (g_faces h) -> f_zone h f <> None) ->
    check_faces_are_linked_to_zones h = (Ok tt, h).
  Proof.
    intros h H. unfold check_faces_are_linked_to_zones. rewrite bind_gets.
    destruct (for_each_ok _ (g_faces h)
      (fun f => zo <- gets (fun h => f_zone h f) ;;
         match zo with None => raise EException | Some _ => ret tt end)
      (fun _ h1 => h1 = h) h eq_refl) as (h' & E & ->); auto.
    intros done f rest h1 El ->. exists h. split; auto. rewrite bind_gets.
    destruct (f_zone h f) eqn:Ef; auto. exfalso. apply (H f); auto.
    rewrite El. apply in_or_app; simpl; auto.
  Qed.

  Lemma post_decompose_ok : forall h, linkable h ->
    (forall f, In f (g_faces h) -> f_zone h f <> None) ->
    exists h', post_decompose h = (Ok tt, h') /\
      frameL h' = frameL h /\ zone_lists_ok h' /\ zone_ids_ok h'.
  Proof.
    intros h Hl Hf. unfold post_decompose.
    destruct (link_ok h Hl) as (h1 & E1 & F1 & L1 & _).
    rewrite (bind_run _ _ _ _ _ _ _ E1).
    pose proof (frameL_fields _ _ F1) as (Enf & Eef & Efz & Ez & Egn & Ege & Egf & Em).
    rewrite (bind_run _ _ _ _ _ _ _ (check_faces_ok h1 ltac:(rewrite Egf, Efz; auto))).
    destruct (set_zones_ids_ok h1) as (h2 & E2 & F2 & I2).
    { rewrite Ez. apply Hl. }
    exists h2. split; [auto|]. split; [unfold frameI in F2; congruence|]. split; auto.
    intros z Hz. assert (F2' : frameL h2 = frameL h1) by (unfold frameI in F2; congruence).
    pose proof (frameL_fields _ _ F2') as (Enf2 & Eef2 & Efz2 & Ez2 & Egn2 & Ege2 & Egf2 & Em2).
    assert (Zn : z_nodes h2 = z_nodes h1) by (unfold frameI in F2; congruence).
    assert (Ze : z_edges h2 = z_edges h1) by (unfold frameI in F2; congruence).
    unfold some_face_in. rewrite Zn, Ze, Egn2, Ege2, Enf2, Eef2, Efz2. apply L1. rewrite <- Ez2. auto.
  Qed.
End Decomp.
