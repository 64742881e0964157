(** Consequences of the results about atomic transformations: counts, refused calls,
    the longest edge, border marking, sequences of transformations. *)

From Coq Require Import ZArith NArith Ascii String Bool Lia List Permutation.
From Verif Require Import Py PyLemmas Heap HeapLemmas GridModel GridSpec DecompSpec SimpleDecomp DecompProofs FarhatProofs DecompMain
  LoadPlace Atomic AtomicSpec PatchProofs PatchRun PatchDel PatchTmpl PatchDone AtomicRun AtomicProofs AtomicTwo AtomicCut
  AtomicInner AtomicFlip.
Import ListNotations.
Open Scope list_scope.
Open Scope nat_scope.

Section Main.
  Context {F : FloatOps}.

  (** ** Counts *)

  Lemma others_length : forall d l l', others d l l' -> NoDup d -> NoDup l -> incl d l -> length l' + length d = length l.
  Proof.
    intros d l l' H Nd Nl Hi.
    assert (P : Permutation l (d ++ l')).
    { apply NoDup_Permutation; auto.
      - apply NoDup_app_intro; auto.
        + eapply sublist_NoDup; eauto.
        + intros x Hx Hy. apply (DecompProofs.sublist_In _ _ _ _ _ H) in Hy. tauto.
      - intros x. rewrite in_app_iff. split; intros K.
        + destruct (in_dec Nat.eq_dec x d); auto. right. apply (DecompProofs.sublist_In _ _ _ _ _ H). auto.
        + destruct K as [K|K]; auto. apply (DecompProofs.sublist_In _ _ _ _ _ H) in K. tauto. }
    rewrite (Permutation_length P), app_length. lia.
  Qed.

  Lemma patched_counts : forall dst h h' P, topo_ok h -> patched_to dst h h' P -> NoDup (gone_faces P) -> NoDup (gone_edges P) ->
    length (g_nodes h') = length (g_nodes h) + length (made_nodes P) /\
    length (g_edges h') + length (gone_edges P) = length (g_edges h) + length (made_edges P) /\
    length (g_faces h') + length (gone_faces P) = length (g_faces h) + length (made_faces P).
  Proof.
    intros dst h h' P T Pa N1 N2. destruct (pa_gone _ _ _ _ Pa) as [I1 I2]. repeat split.
    - rewrite (pa_nodes _ _ _ _ Pa), app_length, map_length. auto.
    - destruct (pa_edges _ _ _ _ Pa) as (l & O & ->). rewrite app_length, map_length.
      pose proof (others_length _ _ _ O N2 (t_edges_nd h T) I2). lia.
    - destruct (pa_faces _ _ _ _ Pa) as (l & l' & O & -> & Q). rewrite app_length, (Permutation_length Q).
      unfold made_face_ids. rewrite map_length. pose proof (others_length _ _ _ O N1 (t_faces_nd h T) I1). lia.
  Qed.

  (** ** Faces with equal corners *)

  Definition corners (x : nat * (nat * nat * nat) * nat) : list nat :=
    let '(_, (a, b, c), _) := x in [a; b; c].

  Lemma patched_no_double : forall dst h h' P, topo_ok h -> topo_ok h' -> patched_to dst h h' P -> no_double_faces h ->
    (forall x, In x (made_faces P) -> exists e a b, In (e, (a, b)) (made_edges P) /\ In a (corners x) /\ In b (corners x)) ->
    (forall x y, In x (made_faces P) -> In y (made_faces P) -> incl (corners x) (corners y) -> fst (fst x) = fst (fst y)) ->
    no_double_faces h'.
  Proof.
    intros dst h h' P T T' Pa Nd H1 H2.
    destruct (pa_faces _ _ _ _ Pa) as (l & l' & O & E & Q).
    assert (In' : forall f, In f (g_faces h') -> In f (g_faces h) /\ ~ In f (gone_faces P) \/
      exists x, In x (made_faces P) /\ fst (fst x) = f /\ Permutation (f_nodes h' f) (corners x)).
    { intros f Hf. rewrite E in Hf. apply in_app_iff in Hf as [Hf|Hf].
      - left. apply (DecompProofs.sublist_In _ _ _ _ _ O) in Hf. auto.
      - right. apply (Permutation_in _ Q) in Hf. unfold made_face_ids in Hf. apply in_map_iff in Hf as ([[f' [[a b] c]] g] & <- & Hx).
        exists (f', (a, b, c), g). split; auto. split; auto. cbn. apply (pa_new_face _ _ _ _ Pa) in Hx. tauto. }
    assert (Len : forall f g, In f (g_faces h') -> In g (g_faces h') -> incl (f_nodes h' f) (f_nodes h' g) ->
      incl (f_nodes h' g) (f_nodes h' f)).
    { intros f g Hf Hg Hi. destruct (t_face_nodes h' T' f Hf) as (L1 & N1 & _). destruct (t_face_nodes h' T' g Hg) as (L2 & N2 & _).
      apply NoDup_length_incl; auto. lia. }
    assert (Mix : forall f g, In f (g_faces h) -> ~ In f (gone_faces P) -> In f (g_faces h') -> In g (g_faces h') ->
      (exists x, In x (made_faces P) /\ fst (fst x) = g /\ Permutation (f_nodes h' g) (corners x)) ->
      incl (f_nodes h' g) (f_nodes h' f) -> False).
    { intros f g Hf Hn Hf' Hg' (x & Hx & _ & Px) Hi.
      destruct (H1 x Hx) as (e & a & b & He & Ha & Hb).
      destruct (pa_new_edge _ _ _ _ Pa _ _ _ He) as [He1 He2].
      assert (He' : In e (g_edges h')).
      { destruct (pa_edges _ _ _ _ Pa) as (k & _ & ->). apply in_app_iff. right. change e with (fst (e, (a, b))). apply in_map. auto. }
      assert (Hab : a <> b).
      { destruct (t_edge_nodes h' T' e He') as (_ & N & _). apply (Permutation_NoDup He2) in N.
        apply NoDup_cons_iff in N as [K _]. intros ->. apply K. left; auto. }
      assert (A : In a (f_nodes h' f)) by (apply Hi, (Permutation_in _ (Permutation_sym Px)); auto).
      assert (B : In b (f_nodes h' f)) by (apply Hi, (Permutation_in _ (Permutation_sym Px)); auto).
      destruct (t_pairs h' T' f a b Hf' A B Hab) as (d & Hd & Da & Db).
      assert (Hd0 : In d (f_edges h f)) by (rewrite (pa_old_face_edges _ _ _ _ Pa f Hf Hn) in Hd; auto).
      assert (Hd1 : In d (g_edges h)) by (apply (t_face_edges h T f Hf); auto).
      assert (Hd2 : In d (g_edges h')) by (apply (t_face_edges h' T' f Hf'); auto).
      assert (e = d).
      { apply (t_uniq h' T'); auto. intros y Hy. apply (Permutation_in _ He2) in Hy. destruct Hy as [<-|[<-|[]]]; auto. }
      subst d. auto. }
    intros f g Hf Hg Hi. destruct (In' f Hf) as [[F1 F2]|F1]; destruct (In' g Hg) as [[G1 G2]|G1].
    - apply Nd; auto. destruct (pa_old_face _ _ _ _ Pa f F1) as (E1 & _). destruct (pa_old_face _ _ _ _ Pa g G1) as (E2 & _).
      rewrite <- E1, <- E2. auto.
    - exfalso. apply (Mix f g); auto.
    - exfalso. apply (Mix g f); auto.
    - destruct F1 as (x & Hx & <- & Px). destruct G1 as (y & Hy & <- & Py). apply H2; auto.
      intros n Hn. apply (Permutation_in _ Py), Hi, (Permutation_in _ (Permutation_sym Px)). auto.
  Qed.

  (** ** Refused calls *)

  Lemma cut_single_edge_no : forall h edge p, length (e_faces h edge) <> 1 -> cut_single_edge edge p h = (Ok false, h).
  Proof.
    intros h edge p H. unfold cut_single_edge. rewrite bind_gets. destruct (e_faces h edge) as [|a [|b r]]; auto.
    cbn in H. lia.
  Qed.

  Lemma cut_edge_no : forall h edge p, length (e_faces h edge) <> 2 -> cut_edge edge p h = (Ok false, h).
  Proof.
    intros h edge p H. unfold cut_edge. rewrite bind_gets. destruct (e_faces h edge) as [|a [|b [|c r]]]; auto.
    cbn in H. lia.
  Qed.

  Lemma collapse_edge_no : forall h edge, length (e_faces h edge) <> 2 -> collapse_edge edge h = (Ok false, h).
  Proof.
    intros h edge H. unfold collapse_edge. rewrite bind_gets. destruct (e_faces h edge) as [|a [|b [|c r]]]; auto.
    cbn in H. lia.
  Qed.

  Lemma cut_two_no : forall h edge p q, length (e_faces h edge) <> 1 -> length (e_faces h edge) <> 2 ->
    cut_edge_with_two_nodes edge p q h = (Ok false, h).
  Proof.
    intros h edge p q H K. unfold cut_edge_with_two_nodes. rewrite bind_gets. destruct (e_faces h edge) as [|a [|b [|c r]]]; auto.
    - cbn in H. lia.
    - cbn in K. lia.
  Qed.

  Lemma collapse_face_no : forall h face edge, max_edge_from_face face h = (Ok edge, h) -> length (e_faces h edge) <> 2 ->
    collapse_face face h = (Ok false, h).
  Proof.
    intros h face edge Mx H. unfold collapse_face. rewrite !bind_gets, (bind_run _ _ _ _ _ _ _ Mx), bind_gets.
    destruct (length (e_faces h edge) =? 2) eqn:E; [apply Nat.eqb_eq in E; lia|reflexivity].
  Qed.

  (** ** The longest edge *)

  Lemma max_edge_loop_max : order_ok -> forall h es best len e, len_edge h best = Ok len ->
    max_edge_loop h best len es = Ok e -> exists l, len_edge h e = Ok l /\ vltb l len = false /\
      forall x lx, In x es -> len_edge h x = Ok lx -> vltb l lx = false.
  Proof.
    intros O h es. induction es as [|x es IH]; intros best len e Hb H; cbn in H.
    - injection H as <-. exists len. repeat split; auto. { apply (o_irr O). } intros y ly [].
    - destruct (len_edge h x) as [l|] eqn:El; [|discriminate]. cbn in H. destruct (vltb len l) eqn:Lt.
      + destruct (IH _ _ _ El H) as (m & Em & M1 & M2). exists m. split; auto.
        split.
        { destruct (vltb m len) eqn:K; auto. rewrite (o_trans O _ _ _ K Lt) in M1. discriminate. }
        intros y ly [<-|Hy] E; eauto. congruence.
      + destruct (IH _ _ _ Hb H) as (m & Em & M1 & M2). exists m. repeat split; auto.
        intros y ly [<-|Hy] E; eauto. rewrite El in E. injection E as <-.
        destruct (vltb m l) eqn:K; auto. destruct (o_weak O _ _ len K); congruence.
  Qed.

  (** ** Border marking *)

  (** State of the marking after visiting the nodes [V]. *)
  Definition marking (h0 h : heap) (V l : list nat) : Prop :=
    (exists b k, h = set_g_nborder (set_n_border h0 b) k) /\ NoDup l /\
    (forall n, In n l <-> n_border h0 n = false /\ In n V) /\
    (forall n, n_border h n = true <-> n_border h0 n = true \/ In n V) /\
    g_nborder h = g_nborder h0 + length l.

  Lemma mark_node_run : forall h0 h V l n, marking h0 h V l ->
    exists h' l', mark_node n h = (Ok tt, h') /\ marking h0 h' (V ++ [n]) l'.
  Proof.
    intros h0 h V l n ((b & k & E) & Nd & Hl & Hm & Hk). unfold mark_node. rewrite bind_gets.
    destruct (n_border h n) eqn:Bn.
    - exists h, l. split; [reflexivity|]. split; [eauto|]. split; [auto|]. apply Hm in Bn. split; [|split; auto].
      + intros m. rewrite Hl, in_app_iff. cbn. split; [tauto|]. intros [K1 [K2|[<-|[]]]]; auto. split; auto.
        destruct Bn; auto. congruence.
      + intros m. rewrite Hm, in_app_iff. cbn. split; [tauto|]. intros [K|[K|[<-|[]]]]; auto.
    - assert (B0 : n_border h0 n = false).
      { destruct (n_border h0 n) eqn:K; auto. assert (n_border h n = true) by (apply Hm; auto). congruence. }
      assert (Nn : ~ In n V).
      { intros K. assert (n_border h n = true) by (apply Hm; auto). congruence. }
      exists (set_g_nborder (set_n_border h (upd (n_border h) n true)) (S (g_nborder h))), (l ++ [n]).
      split; [reflexivity|]. split; [|split; [|split; [|split]]].
      + subst h. do 2 eexists. reflexivity.
      + apply NoDup_app_intro; auto.
        * constructor; [intros []|constructor].
        * intros x Hx [<-|[]]. apply Hl in Hx. tauto.
      + intros m. rewrite !in_app_iff, Hl. cbn. split.
        * intros [K|[<-|[]]]; tauto.
        * intros [K1 [K2|[<-|[]]]]; auto.
      + intros m. cbn. rewrite in_app_iff. cbn. destruct (Nat.eq_dec m n) as [->|D].
        * rewrite upd_same. tauto.
        * rewrite upd_other by auto. rewrite Hm. intuition congruence.
      + cbn. rewrite app_length. cbn. lia.
  Qed.

  Lemma mark_nodes_run : forall h0 ns h V l, marking h0 h V l ->
    exists h' l', for_each ns mark_node h = (Ok tt, h') /\ marking h0 h' (V ++ ns) l'.
  Proof.
    intros h0 ns. induction ns as [|n ns IH]; intros h V l M.
    - exists h, l. rewrite app_nil_r. auto.
    - destruct (mark_node_run _ _ _ _ n M) as (h1 & l1 & E1 & M1). destruct (IH _ _ _ M1) as (h2 & l2 & E2 & M2).
      exists h2, l2. cbn. rewrite (bind_run _ _ _ _ _ _ _ E1). rewrite <- app_assoc in M2. auto.
  Qed.

  Lemma mark_edges_run : forall h0 es h V l, marking h0 h V l ->
    exists h' V' l', for_each es (fun e =>
      fs <- gets (fun h => e_faces h e) ;;
      if (length fs =? 1)%nat
      then ns <- gets (fun h => e_nodes h e) ;; for_each ns mark_node
      else ret tt) h = (Ok tt, h') /\ marking h0 h' V' l' /\
      forall n, In n V' <-> In n V \/ exists e, In e es /\ length (e_faces h0 e) = 1 /\ In n (e_nodes h0 e).
  Proof.
    intros h0 es. induction es as [|e es IH]; intros h V l M.
    - exists h, V, l. split; [reflexivity|]. split; auto. intros n. split; auto. intros [K|(e & [] & _)]; auto.
    - cbn [for_each]. pose proof M as ((b & k & E) & _).
      assert (X1 : e_faces h e = e_faces h0 e) by (rewrite E; reflexivity).
      assert (X2 : e_nodes h e = e_nodes h0 e) by (rewrite E; reflexivity).
      destruct (length (e_faces h0 e) =? 1) eqn:L.
      + destruct (mark_nodes_run h0 (e_nodes h0 e) h V l M) as (h1 & l1 & E1 & M1).
        destruct (IH _ _ _ M1) as (h2 & V2 & l2 & E2 & M2 & HV). exists h2, V2, l2. split; [|split; auto].
        * erewrite bind_run; [exact E2|]. rewrite bind_gets, X1, L, bind_gets, X2. exact E1.
        * intros n. rewrite HV, in_app_iff. apply Nat.eqb_eq in L. split.
          -- intros [[K|K]|(d & K1 & K2)]; auto; right; [exists e|exists d]; cbn; auto.
          -- intros [K|(d & [<-|K1] & K2 & K3)]; auto. right. eauto.
      + destruct (IH _ _ _ M) as (h2 & V2 & l2 & E2 & M2 & HV). exists h2, V2, l2. split; [|split; auto].
        * erewrite bind_run; [exact E2|]. rewrite bind_gets, X1, L. reflexivity.
        * intros n. rewrite HV. apply Nat.eqb_neq in L. split.
          -- intros [K|(d & K1 & K2)]; auto; right; exists d; cbn; auto.
          -- intros [K|(d & [<-|K1] & K2 & K3)]; auto; [lia|]. right. eauto.
  Qed.

  Theorem mark_all_ok : forall h, exists h' b l, mark_all_fixed_nodes h = (Ok tt, h') /\
    h' = set_g_nborder (set_n_border h b) (g_nborder h + length l) /\
    (forall n, b n = true <-> n_border h n = true \/ on_border h n) /\
    NoDup l /\ (forall n, In n l <-> n_border h n = false /\ on_border h n).
  Proof.
    intros h. assert (M0 : marking h h [] []).
    { split; [exists (n_border h), (g_nborder h); destruct h; reflexivity|]. split; [constructor|]. cbn. intuition. }
    destruct (mark_edges_run h (g_edges h) h [] [] M0) as (h' & V & l & E & ((b & k & Eh) & Nd & Hl & Hm & Hk) & HV).
    assert (HV' : forall n, In n V <-> on_border h n).
    { intros n. rewrite HV. unfold on_border. cbn. tauto. }
    exists h', b, l. split; [exact E|]. split; [rewrite Eh in *; cbn in Hk; rewrite Hk; reflexivity|].
    split; [|split; auto].
    - intros n. rewrite <- HV'. rewrite <- Hm, Eh. cbn. tauto.
    - intros n. rewrite <- HV'. auto.
  Qed.

  Theorem mark_all_again : forall h h', mark_all_fixed_nodes h = (Ok tt, h') -> mark_all_fixed_nodes h' = (Ok tt, h').
  Proof.
    intros h h' E. destruct (mark_all_ok h) as (h1 & b & l & E1 & Eh & Hb & _). rewrite E in E1. injection E1 as <-.
    assert (All : forall n, on_border h' n -> n_border h' n = true).
    { intros n (e & K1 & K2 & K3). subst h'. cbn. apply Hb. right. exists e. auto. }
    assert (N : forall ns, (forall n, In n ns -> n_border h' n = true) -> for_each ns mark_node h' = (Ok tt, h')).
    { induction ns as [|n ns IH]; intros H; auto. cbn [for_each]. unfold mark_node at 1. rewrite bind_assoc, bind_gets.
      rewrite (H n) by (left; auto). cbn. apply IH. intros m Hm. apply H. right; auto. }
    unfold mark_all_fixed_nodes. rewrite bind_gets.
    assert (Es : forall es, incl es (g_edges h') -> for_each es (fun e =>
      fs <- gets (fun h => e_faces h e) ;;
      if (length fs =? 1)%nat
      then ns <- gets (fun h => e_nodes h e) ;; for_each ns mark_node
      else ret tt) h' = (Ok tt, h')).
    { induction es as [|e es IH]; intros Hi; auto. cbn [for_each].
      assert (He : In e (g_edges h')) by (apply Hi; left; auto).
      assert (Hi' : incl es (g_edges h')) by (intros x Hx; apply Hi; right; auto).
      erewrite bind_run; [apply IH; auto|]. cbv beta. rewrite bind_gets. destruct (length (e_faces h' e) =? 1) eqn:L.
      - rewrite bind_gets. apply N. intros n Hn. apply All. exists e. apply Nat.eqb_eq in L. auto.
      - reflexivity. }
    apply Es. apply incl_refl.
  Qed.

  Theorem mark_all_number : forall h h', topo_ok h -> (forall n, In n (g_nodes h) -> n_border h n = false) -> g_nborder h = 0 ->
    mark_all_fixed_nodes h = (Ok tt, h') -> g_nborder h' = length (filter (n_border h') (g_nodes h')).
  Proof.
    intros h h' T H0 Z0 E. destruct (mark_all_ok h) as (h1 & b & l & E1 & Eh & Hb & Nd & Hl). rewrite E in E1. injection E1 as <-.
    assert (P : Permutation l (filter (n_border h') (g_nodes h'))).
    { apply NoDup_Permutation; auto.
      - apply NoDup_filter. subst h'. apply (t_nodes_nd h T).
      - intros n. rewrite filter_In, Hl. subst h'. cbn. rewrite Hb. split.
        + intros [K1 K2]. split; auto. destruct K2 as (e & K2 & _ & K3). apply (t_edge_nodes h T e K2). auto.
        + intros [K1 K2]. rewrite H0 in * by auto. split; auto. destruct K2; [discriminate|auto]. }
    rewrite <- (Permutation_length P). subst h'. cbn. lia.
  Qed.
End Main.
