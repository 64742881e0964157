(** Proofs about the second part of Grid.load: the edges are created by
    complex_link_face_node_node_edge, one pair of nodes of a face after another. *)

From Coq Require Import ZArith NArith Ascii String Bool Lia List Permutation.
From Verif Require Import Py PyLemmas Heap HeapLemmas GridModel GridSpec DecompProofs GridIO FileSpec
  Frames LoadParse LoadPlace.
Import ListNotations.
Open Scope list_scope.
Open Scope nat_scope.

Section Edges.
  Context {F : FloatOps}.
  #[local] Strategy expand [complex_link link_face_edges for_each].

  (** Everything but the edges, the edge list and the edge lists of nodes and faces. *)
  Definition restE (h : heap) :=
    ((n_glo h, n_p h, n_rc h, n_faces h, n_border h, next_n h, g_nodes h, g_bag h),
     (f_glo h, f_data h, f_nodes h, f_zone h, f_mark h, next_f h, g_faces h),
     (z_id h, z_name h, z_nodes h, z_edges h, z_faces h, z_fixed h, next_z h, g_zones h),
     (g_name h, g_nborder h)).

  Lemma link_edge_face_run : forall e f h, length (e_faces h e) <> 2 ->
    exists h1, link_edge_face e f h = (Ok tt, h1) /\
      e_faces h1 = upd (e_faces h) e (e_faces h e ++ [f]) /\
      f_edges h1 = upd (f_edges h) f (f_edges h f ++ [e]) /\
      n_edges h1 = n_edges h /\ e_glo h1 = e_glo h /\ e_nodes h1 = e_nodes h /\
      next_e h1 = next_e h /\ g_edges h1 = g_edges h /\ restE h1 = restE h.
  Proof.
    intros e f h H. unfold link_edge_face. rewrite bind_gets.
    destruct (Nat.eqb_spec (length (e_faces h e)) 2); [contradiction|].
    eexists. split; [reflexivity|]. repeat split.
  Qed.

  Lemma link_edge_face_full : forall e f h, length (e_faces h e) = 2 ->
    link_edge_face e f h = (Raise EException, h).
  Proof. intros e f h H. unfold link_edge_face. rewrite bind_gets, H. reflexivity. Qed.

  Lemma new_edge_run : forall h, exists h1, new_edge h = (Ok (next_e h), h1) /\
    e_glo h1 = upd (e_glo h) (next_e h) (-1)%Z /\ e_nodes h1 = upd (e_nodes h) (next_e h) [] /\
    e_faces h1 = upd (e_faces h) (next_e h) [] /\ next_e h1 = S (next_e h) /\
    g_edges h1 = g_edges h /\ n_edges h1 = n_edges h /\ f_edges h1 = f_edges h /\ restE h1 = restE h.
  Proof. intros h. eexists. split; [reflexivity|]. repeat split. Qed.

  Lemma add_edge_run : forall e h, exists h1, add_edge e None h = (Ok tt, h1) /\
    e_glo h1 = upd (e_glo h) e (Z.of_nat (length (g_edges h))) /\ g_edges h1 = g_edges h ++ [e] /\
    e_nodes h1 = e_nodes h /\ e_faces h1 = e_faces h /\ next_e h1 = next_e h /\
    n_edges h1 = n_edges h /\ f_edges h1 = f_edges h /\ restE h1 = restE h.
  Proof. intros e h. eexists. split; [reflexivity|]. repeat split. Qed.

  Lemma link_node_edge_run : forall n e h, exists h1, link_node_edge n e h = (Ok tt, h1) /\
    n_edges h1 = upd (n_edges h) n (n_edges h n ++ [e]) /\
    e_nodes h1 = upd (e_nodes h) e (e_nodes h e ++ [n]) /\
    e_glo h1 = e_glo h /\ e_faces h1 = e_faces h /\ next_e h1 = next_e h /\
    g_edges h1 = g_edges h /\ f_edges h1 = f_edges h /\ restE h1 = restE h.
  Proof. intros n e h. eexists. split; [reflexivity|]. repeat split. Qed.

  Lemma start_edge_run : forall a b h, exists h1,
    (e <- new_edge ;; add_edge e None ;;; link_node_edge a e ;;; link_node_edge b e ;;; ret e) h
      = (Ok (next_e h), h1) /\
    (forall x, e_glo h1 x = if x =? next_e h then Z.of_nat (length (g_edges h)) else e_glo h x) /\
    (forall x, e_nodes h1 x = if x =? next_e h then [a; b] else e_nodes h x) /\
    e_faces h1 = upd (e_faces h) (next_e h) [] /\ next_e h1 = S (next_e h) /\
    g_edges h1 = g_edges h ++ [next_e h] /\
    (forall x, n_edges h1 x = n_edges h x ++ (if x =? a then [next_e h] else []) ++
                              (if x =? b then [next_e h] else [])) /\
    f_edges h1 = f_edges h /\ restE h1 = restE h.
  Proof.
    intros a b h. set (e := next_e h).
    destruct (new_edge_run h) as (h1 & E1 & A1 & A2 & A3 & A4 & A5 & A6 & A7 & A8). fold e in E1, A1, A2, A3, A4.
    destruct (add_edge_run e h1) as (h2 & E2 & B1 & B2 & B3 & B4 & B5 & B6 & B7 & B8).
    destruct (link_node_edge_run a e h2) as (h3 & E3 & C1 & C2 & C3 & C4 & C5 & C6 & C7 & C8).
    destruct (link_node_edge_run b e h3) as (h4 & E4 & D1 & D2 & D3 & D4 & D5 & D6 & D7 & D8).
    exists h4. split.
    { rewrite (bind_run _ _ _ _ _ _ _ E1), (bind_run _ _ _ _ _ _ _ E2), (bind_run _ _ _ _ _ _ _ E3),
        (bind_run _ _ _ _ _ _ _ E4). reflexivity. }
    split; [|split; [|split; [|split; [|split; [|split; [|split]]]]]].
    - intros x. rewrite D3, C3, B1, A5, A1. unfold upd. destruct (x =? e); auto.
    - intros x. rewrite D2, C2, B3, A2. unfold upd. rewrite !Nat.eqb_refl. destruct (x =? e); auto.
    - congruence.
    - congruence.
    - congruence.
    - intros x. rewrite D1, C1, B6, A6. unfold upd.
      destruct (Nat.eqb_spec x b) as [->|Hb]; [destruct (Nat.eqb_spec b a) as [->|Ha]|
        destruct (Nat.eqb_spec x a) as [->|Ha]].
      + rewrite <- app_assoc. reflexivity.
      + reflexivity.
      + reflexivity.
      + rewrite !app_nil_r. reflexivity.
    - congruence.
    - congruence.
  Qed.

  Lemma complex_link_full : forall f a b h e, find_edge h a b = Some e -> length (e_faces h e) = 2 ->
    complex_link f a b h = (Raise EException, h).
  Proof.
    intros f a b h e E L. unfold complex_link. rewrite bind_gets, E. apply link_edge_face_full; auto.
  Qed.

  Lemma complex_link_found : forall f a b h e, find_edge h a b = Some e -> length (e_faces h e) <> 2 ->
    exists h1, complex_link f a b h = (Ok tt, h1) /\
      (forall x, e_faces h1 x = if x =? e then e_faces h e ++ [f] else e_faces h x) /\
      (forall x, f_edges h1 x = if x =? f then f_edges h f ++ [e] else f_edges h x) /\
      n_edges h1 = n_edges h /\ e_glo h1 = e_glo h /\ e_nodes h1 = e_nodes h /\
      next_e h1 = next_e h /\ g_edges h1 = g_edges h /\ restE h1 = restE h.
  Proof.
    intros f a b h e E L. destruct (link_edge_face_run e f h L) as (h1 & E1 & A1 & A2 & A3).
    exists h1. split.
    - unfold complex_link. rewrite bind_gets, E. exact E1.
    - rewrite A1, A2. split; [reflexivity|]. split; [reflexivity|]. exact A3.
  Qed.

  Lemma complex_link_new : forall f a b h, find_edge h a b = None ->
    exists h1, complex_link f a b h = (Ok tt, h1) /\
      (forall x, e_faces h1 x = if x =? next_e h then [f] else e_faces h x) /\
      (forall x, f_edges h1 x = if x =? f then f_edges h f ++ [next_e h] else f_edges h x) /\
      (forall x, n_edges h1 x = n_edges h x ++ (if x =? a then [next_e h] else []) ++
                              (if x =? b then [next_e h] else [])) /\
      (forall x, e_glo h1 x = if x =? next_e h then Z.of_nat (length (g_edges h)) else e_glo h x) /\
      (forall x, e_nodes h1 x = if x =? next_e h then [a; b] else e_nodes h x) /\
      next_e h1 = S (next_e h) /\ g_edges h1 = g_edges h ++ [next_e h] /\ restE h1 = restE h.
  Proof.
    intros f a b h E. destruct (start_edge_run a b h) as (h1 & E1 & A1 & A2 & A3 & A4 & A5 & A6 & A7 & A8).
    set (e := next_e h) in *.
    assert (L : length (e_faces h1 e) <> 2).
    { rewrite A3. unfold upd. rewrite Nat.eqb_refl. cbn. lia. }
    destruct (link_edge_face_run e f h1 L) as (h2 & E2 & B1 & B2 & B3 & B4 & B5 & B6 & B7 & B8).
    exists h2. split.
    - unfold complex_link. rewrite bind_gets, E.
      apply bind_inv in E1 as (e' & g1 & Q1 & Q2). apply bind_inv in Q2 as ([] & g2 & Q2 & Q3).
      apply bind_inv in Q3 as ([] & g3 & Q3 & Q4). apply bind_inv in Q4 as ([] & g4 & Q4 & Q5).
      injection Q5 as Ee ->. subst e'.
      rewrite (bind_run _ _ _ _ _ _ _ Q1), (bind_run _ _ _ _ _ _ _ Q2), (bind_run _ _ _ _ _ _ _ Q3),
        (bind_run _ _ _ _ _ _ _ Q4). exact E2.
    - split; [|split; [|split; [|split; [|split]]]].
      + intros x. rewrite B1, A3. unfold upd. rewrite Nat.eqb_refl. destruct (x =? e); auto.
      + intros x. rewrite B2, A7. reflexivity.
      + intros x. rewrite B3. apply A6.
      + intros x. rewrite B4. apply A1.
      + intros x. rewrite B5. apply A2.
      + rewrite B6, B7, B8. auto.
  Qed.

  (** Grid nodes with the same label and the same rounded position are the same. *)
  Definition sep (comp : nat -> nat) (h : heap) : Prop :=
    forall n m, In n (g_nodes h) -> In m (g_nodes h) -> comp n = comp m -> n_rc h n = n_rc h m -> n = m.

  Definition task := (nat * nat * nat)%type.

  (** [ts]: the tasks (face, node, node) done so far. *)
  Record winv (comp : nat -> nat) (ts : list task) (h : heap) : Prop := {
    w_nd : NoDup (g_edges h);
    w_alloc : forall e, In e (g_edges h) -> e < next_e h;
    w_glo : forall i e, nth_error (g_edges h) i = Some e -> e_glo h e = Z.of_nat i;
    w_len : forall e, In e (g_edges h) -> length (e_nodes h e) = 2;
    w_nodes : forall e, In e (g_edges h) -> incl (e_nodes h e) (g_nodes h);
    w_comp : forall e x y, In e (g_edges h) -> In x (e_nodes h e) -> In y (e_nodes h e) -> comp x = comp y;
    w_nedges : forall n, In n (g_nodes h) -> incl (n_edges h n) (g_edges h);
    w_ne : forall n e, In n (g_nodes h) -> In e (g_edges h) -> (In e (n_edges h n) <-> In n (e_nodes h e));
    w_uniq : forall a b e1 e2, In e1 (g_edges h) -> In e2 (g_edges h) -> a <> b ->
      In a (e_nodes h e1) -> In b (e_nodes h e1) -> In a (e_nodes h e2) -> In b (e_nodes h e2) -> e1 = e2;
    w_two : forall e, In e (g_edges h) -> length (e_faces h e) <= 2;
    w_faces : forall e, In e (g_edges h) -> incl (e_faces h e) (g_faces h);
    w_done : forall f a b, In (f, a, b) ts -> a <> b ->
      exists e, In e (g_edges h) /\ In a (e_nodes h e) /\ In b (e_nodes h e) /\ In f (e_faces h e)
  }.

  Lemma find_edge_some : forall comp ts h a b e, winv comp ts h -> sep comp h ->
    In a (g_nodes h) -> In b (g_nodes h) -> comp a = comp b ->
    find_edge h a b = Some e -> In e (g_edges h) /\ In a (e_nodes h e) /\ In b (e_nodes h e).
  Proof.
    intros comp ts h a b e W S Ha Hb Hc E. unfold find_edge in E. apply find_some in E as [E1 E2].
    assert (He : In e (g_edges h)) by (apply (w_nedges _ _ _ W a); auto).
    assert (Ha' : In a (e_nodes h e)) by (apply (w_ne _ _ _ W); auto).
    split; [auto|]. split; [auto|]. unfold mem in E2. apply existsb_exists in E2 as (x & Hx & E2).
    apply rc_eqb_eq in E2. replace b with x; auto.
    apply S; auto.
    - apply (w_nodes _ _ _ W e); auto.
    - rewrite <- Hc. apply (w_comp _ _ _ W e); auto.
  Qed.

  Lemma find_edge_none : forall comp ts h a b e, winv comp ts h ->
    In a (g_nodes h) -> find_edge h a b = None ->
    In e (g_edges h) -> In a (e_nodes h e) -> In b (e_nodes h e) -> False.
  Proof.
    intros comp ts h a b e W Ha E He Hx Hy. unfold find_edge in E.
    pose proof (find_none _ _ E e) as H. cbn in H.
    assert (In e (n_edges h a)) by (apply (w_ne _ _ _ W); auto).
    specialize (H H0). unfold mem in H. assert (existsb (is_near h b) (e_nodes h e) = true); [|congruence].
    apply existsb_exists. exists b. split; auto. apply rc_eqb_eq; auto.
  Qed.

  (** Adding the face to a found edge. *)
  Lemma winv_found : forall comp ts f a b e h h1, winv comp ts h ->
    In e (g_edges h) -> In a (e_nodes h e) -> In b (e_nodes h e) -> In f (g_faces h) ->
    length (e_faces h e) <> 2 ->
    (forall x, e_faces h1 x = if x =? e then e_faces h e ++ [f] else e_faces h x) ->
    n_edges h1 = n_edges h -> e_glo h1 = e_glo h -> e_nodes h1 = e_nodes h ->
    next_e h1 = next_e h -> g_edges h1 = g_edges h -> restE h1 = restE h ->
    winv comp (ts ++ [(f, a, b)]) h1.
  Proof.
    intros comp ts f a b e h h1 W He Ha Hb Hf L A1 A2 A3 A4 A5 A6 A7.
    assert (Eg : g_nodes h1 = g_nodes h) by (unfold restE in A7; congruence).
    assert (Ef : g_faces h1 = g_faces h) by (unfold restE in A7; congruence).
    clear A7. destruct W. constructor; rewrite ?A2, ?A3, ?A4, ?A5, ?A6, ?Eg, ?Ef; auto.
    - intros x Hx. rewrite A1. destruct (Nat.eqb_spec x e); auto. rewrite app_length. cbn.
      specialize (w_two0 e He). lia.
    - intros x Hx. rewrite A1. destruct (Nat.eqb_spec x e); auto. subst x.
      intros g Hg. apply in_app_iff in Hg as [Hg|[<-|[]]]; auto. apply (w_faces0 e); auto.
    - intros g x y Hin Hxy. apply in_app_iff in Hin as [Hin|[Hin|[]]].
      + destruct (w_done0 g x y Hin Hxy) as (e' & K1 & K2 & K3 & K4). exists e'.
        split; [auto|]. split; [auto|]. split; [auto|]. rewrite A1. destruct (Nat.eqb_spec e' e); auto.
        subst. apply in_app_iff; auto.
      + injection Hin as <- <- <-. exists e. rewrite A1, Nat.eqb_refl, in_app_iff. cbn. tauto.
  Qed.

  Lemma two_in : forall A (l : list A) a b x, length l = 2 -> a <> b -> In a l -> In b l -> In x l -> x = a \/ x = b.
  Proof.
    intros A [|u [|v [|w l]]] a b x L Hab Ha Hb Hx; try discriminate.
    cbn in *. destruct Ha as [<-|[<-|[]]], Hb as [<-|[<-|[]]], Hx as [<-|[<-|[]]]; auto; congruence.
  Qed.

  (** Creating a new edge. *)
  Lemma winv_new : forall comp ts f a b h h1, winv comp ts h ->
    In a (g_nodes h) -> In b (g_nodes h) -> comp a = comp b -> In f (g_faces h) ->
    find_edge h a b = None ->
    (forall x, e_faces h1 x = if x =? next_e h then [f] else e_faces h x) ->
    (forall x, n_edges h1 x = n_edges h x ++ (if x =? a then [next_e h] else []) ++
                              (if x =? b then [next_e h] else [])) ->
    (forall x, e_glo h1 x = if x =? next_e h then Z.of_nat (length (g_edges h)) else e_glo h x) ->
    (forall x, e_nodes h1 x = if x =? next_e h then [a; b] else e_nodes h x) ->
    next_e h1 = S (next_e h) -> g_edges h1 = g_edges h ++ [next_e h] -> restE h1 = restE h ->
    winv comp (ts ++ [(f, a, b)]) h1.
  Proof.
    intros comp ts f a b h h1 W Ha Hb Hc Hf Hn A1 A2 A3 A4 A5 A6 A7.
    assert (Eg : g_nodes h1 = g_nodes h) by (unfold restE in A7; congruence).
    assert (Ef : g_faces h1 = g_faces h) by (unfold restE in A7; congruence).
    clear A7. set (e := next_e h) in *.
    assert (Hne : forall x, In x (g_edges h) -> (x =? e) = false).
    { intros x Hx. apply Nat.eqb_neq. apply (w_alloc _ _ _ W) in Hx. unfold e. lia. }
    assert (Hcase : forall x, In x (g_edges h ++ [e]) -> (In x (g_edges h) /\ (x =? e) = false) \/ (x = e /\ (x =? e) = true)).
    { intros x Hx. apply in_app_iff in Hx as [Hx|[<-|[]]]; [left|right; split; auto; apply Nat.eqb_refl]. auto. }
    pose proof (find_edge_none comp ts h a b) as Hfe.
    constructor; rewrite ?A5, ?A6, ?Eg, ?Ef.
    - apply NoDup_snoc; [apply (w_nd _ _ _ W)|]. intros H. apply Hne in H. rewrite Nat.eqb_refl in H. discriminate.
    - intros x Hx. apply Hcase in Hx as [[Hx _]|[-> _]]; [apply (w_alloc _ _ _ W) in Hx|]; unfold e in *; lia.
    - intros i x Hx. rewrite A3. apply nth_error_snoc in Hx as [[_ Hx]|[-> ->]].
      + rewrite Hne by (eapply nth_error_In; eauto). apply (w_glo _ _ _ W); auto.
      + rewrite Nat.eqb_refl. auto.
    - intros x Hx. rewrite A4. apply Hcase in Hx as [[Hx ->]|[-> ->]]; auto. apply (w_len _ _ _ W); auto.
    - intros x Hx. rewrite A4. apply Hcase in Hx as [[Hx ->]|[-> ->]].
      + apply (w_nodes _ _ _ W); auto.
      + intros y [<-|[<-|[]]]; auto.
    - intros x u v Hx. rewrite A4. apply Hcase in Hx as [[Hx ->]|[-> ->]].
      + apply (w_comp _ _ _ W); auto.
      + intros [<-|[<-|[]]] [<-|[<-|[]]]; auto.
    - intros n Hn' x Hx. rewrite A2 in Hx. apply in_app_iff. rewrite !in_app_iff in Hx.
      destruct Hx as [Hx|[Hx|Hx]].
      + left. apply (w_nedges _ _ _ W n); auto.
      + right. destruct (n =? a); [auto|destruct Hx].
      + right. destruct (n =? b); [auto|destruct Hx].
    - intros n x Hn' Hx. rewrite A2, A4, !in_app_iff.
      apply Hcase in Hx as [[Hx Ex]|[-> Ex]]; rewrite Ex.
      + apply Nat.eqb_neq in Ex. rewrite <- (w_ne _ _ _ W n x Hn' Hx).
        split; [|tauto]. intros [K|[K|K]]; auto.
        * destruct (n =? a); [destruct K as [K|[]]; congruence|destruct K].
        * destruct (n =? b); [destruct K as [K|[]]; congruence|destruct K].
      + split.
        * intros [K|[K|K]].
          -- apply (w_nedges _ _ _ W n Hn') in K. apply Hne in K. congruence.
          -- destruct (Nat.eqb_spec n a); [subst; left; auto|destruct K].
          -- destruct (Nat.eqb_spec n b); [subst; right; left; auto|destruct K].
        * intros [<-|[<-|[]]]; rewrite Nat.eqb_refl; [right; left|right; right]; left; auto.
    - intros u v e1 e2 H1 H2 Huv. rewrite !A4.
      assert (G : forall x, In x (g_edges h) -> In u [a; b] -> In v [a; b] ->
                  In u (e_nodes h x) -> In v (e_nodes h x) -> False).
      { intros x Hx Hu Hv Hu' Hv'. apply (Hfe x); auto.
        - destruct (two_in _ [a; b] u v a eq_refl Huv Hu Hv) as [->| ->]; auto. left; auto.
        - destruct (two_in _ [a; b] u v b eq_refl Huv Hu Hv) as [->| ->]; auto. right; left; auto. }
      apply Hcase in H1 as [[H1 ->]|[-> ->]]; apply Hcase in H2 as [[H2 ->]|[-> ->]]; auto.
      + apply (w_uniq _ _ _ W u v); auto.
      + intros K1 K2 K3 K4. exfalso. eauto.
      + intros K1 K2 K3 K4. exfalso. eauto.
    - intros x Hx. rewrite A1. apply Hcase in Hx as [[Hx ->]|[-> ->]]; [apply (w_two _ _ _ W); auto|cbn; lia].
    - intros x Hx. rewrite A1. apply Hcase in Hx as [[Hx ->]|[-> ->]]; [apply (w_faces _ _ _ W); auto|].
      intros y [<-|[]]; auto.
    - intros g x y Hin Hxy. apply in_app_iff in Hin as [Hin|[Hin|[]]].
      + destruct (w_done _ _ _ W g x y Hin Hxy) as (e' & K1 & K2 & K3 & K4). exists e'.
        rewrite A1, A4, Hne by auto. rewrite in_app_iff. auto.
      + injection Hin as <- <- <-. exists e. rewrite A1, A4, Nat.eqb_refl, in_app_iff. cbn. tauto.
  Qed.

  Lemma winv_step : forall comp ts f a b h h1, winv comp ts h -> sep comp h ->
    In a (g_nodes h) -> In b (g_nodes h) -> comp a = comp b -> In f (g_faces h) ->
    complex_link f a b h = (Ok tt, h1) ->
    winv comp (ts ++ [(f, a, b)]) h1 /\ restE h1 = restE h.
  Proof.
    intros comp ts f a b h h1 W S Ha Hb Hc Hf E. destruct (find_edge h a b) as [e|] eqn:Ee.
    - destruct (find_edge_some comp ts h a b e W S Ha Hb Hc Ee) as (He & Hae & Hbe).
      destruct (Nat.eq_dec (length (e_faces h e)) 2) as [L|L].
      + rewrite (complex_link_full _ _ _ _ _ Ee L) in E. discriminate.
      + destruct (complex_link_found f a b h e Ee L) as (h2 & E2 & A1 & A2 & A3 & A4 & A5 & A6 & A7 & A8).
        rewrite E in E2. injection E2 as <-. split; auto.
        exact (winv_found comp ts f a b e h h1 W He Hae Hbe Hf L A1 A3 A4 A5 A6 A7 A8).
    - destruct (complex_link_new f a b h Ee) as (h2 & E2 & A1 & A2 & A3 & A4 & A5 & A6 & A7 & A8).
      rewrite E in E2. injection E2 as <-. split; auto.
      exact (winv_new comp ts f a b h h1 W Ha Hb Hc Hf Ee A1 A3 A4 A5 A6 A7 A8).
  Qed.

  Definition task_face (t : task) : nat := fst (fst t).

  (** All faces have three different corners. *)
  Record sinv (comp : nat -> nat) (ts : list task) (h : heap) : Prop := {
    s_w : winv comp ts h;
    s_task : forall f a b, In (f, a, b) ts -> a <> b /\ In f (g_faces h);
    s_nodes : forall e, In e (g_edges h) -> NoDup (e_nodes h e);
    s_faces : forall e, In e (g_edges h) -> 1 <= length (e_faces h e) /\ NoDup (e_faces h e);
    s_ef : forall e f, In e (g_edges h) ->
      (In f (e_faces h e) <-> exists a b, In (f, a, b) ts /\ In a (e_nodes h e) /\ In b (e_nodes h e));
    s_fnd : forall f, In f (g_faces h) -> NoDup (f_edges h f) /\ incl (f_edges h f) (g_edges h);
    s_fe : forall e f, In e (g_edges h) -> In f (g_faces h) -> (In f (e_faces h e) <-> In e (f_edges h f));
    s_len : forall f, In f (g_faces h) ->
      length (f_edges h f) = count_occ Nat.eq_dec (map task_face ts) f;
    s_n : forall n, In n (g_nodes h) -> NoDup (n_edges h n)
  }.

  Lemma count_task : forall ts f a b g,
    count_occ Nat.eq_dec (map task_face (ts ++ [(f, a, b)])) g =
    count_occ Nat.eq_dec (map task_face ts) g + (if g =? f then 1 else 0).
  Proof.
    intros. rewrite map_app, count_occ_app. f_equal.
    change (map task_face [(f, a, b)]) with [f]. cbn [count_occ].
    destruct (Nat.eq_dec f g), (Nat.eqb_spec g f); subst; congruence.
  Qed.

  Lemma sinv_found : forall comp ts f a b e h h1, sinv comp ts h ->
    winv comp (ts ++ [(f, a, b)]) h1 ->
    In e (g_edges h) -> In a (e_nodes h e) -> In b (e_nodes h e) -> In f (g_faces h) -> a <> b ->
    ~ In f (e_faces h e) ->
    (forall x, e_faces h1 x = if x =? e then e_faces h e ++ [f] else e_faces h x) ->
    (forall x, f_edges h1 x = if x =? f then f_edges h f ++ [e] else f_edges h x) ->
    n_edges h1 = n_edges h -> e_nodes h1 = e_nodes h -> g_edges h1 = g_edges h -> restE h1 = restE h ->
    sinv comp (ts ++ [(f, a, b)]) h1.
  Proof.
    intros comp ts f a b e h h1 S W1 He Ha Hb Hf Hab Hfe A1 A2 A3 A4 A5 A6.
    assert (Eg : g_nodes h1 = g_nodes h) by (unfold restE in A6; congruence).
    assert (Ef : g_faces h1 = g_faces h) by (unfold restE in A6; congruence).
    assert (Hef : ~ In e (f_edges h f)) by (rewrite <- (s_fe _ _ _ S); auto).
    constructor; rewrite ?A3, ?A4, ?A5, ?Eg, ?Ef.
    - auto.
    - intros g x y Hin. apply in_app_iff in Hin as [Hin|[Hin|[]]].
      + apply (s_task _ _ _ S _ _ _ Hin).
      + injection Hin as <- <- <-. auto.
    - apply (s_nodes _ _ _ S).
    - intros x Hx. rewrite A1. destruct (Nat.eqb_spec x e); [|apply (s_faces _ _ _ S); auto].
      destruct (s_faces _ _ _ S e He) as [K1 K2]. split; [rewrite app_length; lia|]. apply NoDup_snoc; auto.
    - intros x g Hx. rewrite A1. destruct (Nat.eqb_spec x e) as [->|Hne].
      + rewrite in_app_iff, (s_ef _ _ _ S e g He). split.
        * intros [(u & v & K1 & K2)|[<-|[]]]; [exists u, v|exists a, b]; rewrite in_app_iff; cbn; auto.
        * intros (u & v & K1 & K2 & K3). apply in_app_iff in K1 as [K1|[K1|[]]].
          -- left. eauto.
          -- injection K1 as <- <- <-. right. left. auto.
      + rewrite (s_ef _ _ _ S x g Hx). split.
        * intros (u & v & K1 & K2). exists u, v. rewrite in_app_iff; auto.
        * intros (u & v & K1 & K2 & K3). apply in_app_iff in K1 as [K1|[K1|[]]]; [eauto|].
          injection K1 as <- <- <-. exfalso. apply Hne.
          apply (w_uniq _ _ _ (s_w _ _ _ S) a b); auto.
    - intros g Hg. rewrite A2. destruct (Nat.eqb_spec g f) as [->|Hne]; [|apply (s_fnd _ _ _ S); auto].
      destruct (s_fnd _ _ _ S f Hg) as [K1 K2]. split; [apply NoDup_snoc; auto|].
      intros y Hy. apply in_app_iff in Hy as [Hy|[<-|[]]]; auto.
    - intros x g Hx Hg. rewrite A1, A2. pose proof (s_fe _ _ _ S x g Hx Hg) as K.
      destruct (Nat.eqb_spec x e) as [->|Hne], (Nat.eqb_spec g f) as [->|Hng]; rewrite ?in_app_iff; cbn.
      + tauto.
      + rewrite K. split; [intros [|[<-|[]]]; auto; congruence|auto].
      + rewrite K. split; [auto|intros [|[<-|[]]]; auto; congruence].
      + auto.
    - intros g Hg. rewrite A2, count_task. pose proof (s_len _ _ _ S g Hg) as K.
      destruct (Nat.eqb_spec g f) as [->|Hne]; [rewrite app_length; cbn|]; lia.
    - apply (s_n _ _ _ S).
  Qed.

  Lemma sinv_new : forall comp ts f a b h h1, sinv comp ts h ->
    winv comp (ts ++ [(f, a, b)]) h1 ->
    In a (g_nodes h) -> In b (g_nodes h) -> In f (g_faces h) -> a <> b ->
    find_edge h a b = None ->
    (forall x, e_faces h1 x = if x =? next_e h then [f] else e_faces h x) ->
    (forall x, f_edges h1 x = if x =? f then f_edges h f ++ [next_e h] else f_edges h x) ->
    (forall x, n_edges h1 x = n_edges h x ++ (if x =? a then [next_e h] else []) ++
                              (if x =? b then [next_e h] else [])) ->
    (forall x, e_nodes h1 x = if x =? next_e h then [a; b] else e_nodes h x) ->
    g_edges h1 = g_edges h ++ [next_e h] -> restE h1 = restE h ->
    sinv comp (ts ++ [(f, a, b)]) h1.
  Proof.
    intros comp ts f a b h h1 S W1 Ha Hb Hf Hab Hn A1 A2 A3 A4 A5 A6.
    assert (Eg : g_nodes h1 = g_nodes h) by (unfold restE in A6; congruence).
    assert (Ef : g_faces h1 = g_faces h) by (unfold restE in A6; congruence).
    clear A6. set (e := next_e h) in *. pose proof (s_w _ _ _ S) as W.
    assert (Hne : forall x, In x (g_edges h) -> (x =? e) = false).
    { intros x Hx. apply Nat.eqb_neq. apply (w_alloc _ _ _ W) in Hx. unfold e. lia. }
    assert (Hcase : forall x, In x (g_edges h ++ [e]) -> (In x (g_edges h) /\ (x =? e) = false) \/ (x = e /\ (x =? e) = true)).
    { intros x Hx. apply in_app_iff in Hx as [Hx|[<-|[]]]; [left|right; split; auto; apply Nat.eqb_refl]. auto. }
    assert (Hnew : ~ In e (g_edges h)).
    { intros H. apply Hne in H. rewrite Nat.eqb_refl in H. discriminate. }
    pose proof (find_edge_none comp ts h a b) as Hfe.
    constructor; rewrite ?A5, ?Eg, ?Ef.
    - auto.
    - intros g x y Hin. apply in_app_iff in Hin as [Hin|[Hin|[]]].
      + apply (s_task _ _ _ S _ _ _ Hin).
      + injection Hin as <- <- <-. auto.
    - intros x Hx. rewrite A4. apply Hcase in Hx as [[Hx ->]|[-> ->]]; [apply (s_nodes _ _ _ S); auto|].
      constructor; [intros [H|[]]; congruence|]. constructor; [intros []|constructor].
    - intros x Hx. rewrite A1. apply Hcase in Hx as [[Hx ->]|[-> ->]]; [apply (s_faces _ _ _ S); auto|].
      split; [cbn; lia|]. constructor; [intros []|constructor].
    - intros x g Hx. rewrite A1, A4. apply Hcase in Hx as [[Hx ->]|[-> ->]].
      + rewrite (s_ef _ _ _ S x g Hx). split.
        * intros (u & v & K1 & K2). exists u, v. rewrite in_app_iff; auto.
        * intros (u & v & K1 & K2 & K3). apply in_app_iff in K1 as [K1|[K1|[]]]; [eauto|].
          injection K1 as <- <- <-. exfalso. eauto.
      + split.
        * intros [<-|[]]. exists a, b. rewrite in_app_iff. cbn. auto 6.
        * intros (u & v & K1 & K2 & K3). apply in_app_iff in K1 as [K1|[K1|[]]].
          -- exfalso. destruct (s_task _ _ _ S _ _ _ K1) as [Huv _].
             destruct (w_done _ _ _ W g u v K1 Huv) as (x & X1 & X2 & X3 & _).
             apply (Hfe x); auto.
             ++ destruct (two_in _ [a; b] u v a eq_refl Huv K2 K3) as [->| ->]; auto. left; auto.
             ++ destruct (two_in _ [a; b] u v b eq_refl Huv K2 K3) as [->| ->]; auto. right; left; auto.
          -- injection K1 as <- <- <-. left. auto.
    - intros g Hg. rewrite A2. destruct (s_fnd _ _ _ S g Hg) as [K1 K2].
      destruct (Nat.eqb_spec g f) as [->|Hng].
      + split; [apply NoDup_snoc; auto|]. intros y Hy. apply in_app_iff in Hy as [Hy|[<-|[]]]; apply in_app_iff; auto.
        right; left; auto.
      + split; auto. intros y Hy. apply in_app_iff; auto.
    - intros x g Hx Hg. rewrite A1, A2. destruct (s_fnd _ _ _ S g Hg) as [_ K2].
      apply Hcase in Hx as [[Hx Ex]|[-> Ex]]; rewrite Ex.
      + rewrite (s_fe _ _ _ S x g Hx Hg). destruct (Nat.eqb_spec g f) as [->|Hng]; [|tauto].
        rewrite in_app_iff. split; [auto|]. intros [|[<-|[]]]; auto. contradiction.
      + destruct (Nat.eqb_spec g f) as [->|Hng].
        * rewrite in_app_iff. cbn. tauto.
        * split; [intros [<-|[]]; congruence|]. intros K. apply K2 in K. contradiction.
    - intros g Hg. rewrite A2, count_task. pose proof (s_len _ _ _ S g Hg) as K.
      destruct (Nat.eqb_spec g f) as [->|Hng]; [rewrite app_length; cbn|]; lia.
    - intros n Hn'. rewrite A3. pose proof (s_n _ _ _ S n Hn') as K.
      assert (Hni : ~ In e (n_edges h n)). { intros X. apply (w_nedges _ _ _ W n Hn') in X. auto. }
      destruct (Nat.eqb_spec n a); destruct (Nat.eqb_spec n b); cbn; rewrite ?app_nil_r.
      + congruence.
      + apply NoDup_snoc; auto.
      + apply NoDup_snoc; auto.
      + auto.
  Qed.

  Lemma two_faces : forall (l : list nat), length l = 2 -> NoDup l -> exists f1 f2, l = [f1; f2] /\ f1 <> f2.
  Proof.
    intros [|f1 [|f2 [|]]] L N; try discriminate. exists f1, f2. split; auto. inv N. cbn in H1. intros ->. auto.
  Qed.

  (** One task: it succeeds, or two other faces have the same pair of corners. *)
  Lemma sinv_step : forall comp ts f a b h, sinv comp ts h -> sep comp h ->
    In a (g_nodes h) -> In b (g_nodes h) -> comp a = comp b -> In f (g_faces h) -> a <> b ->
    (forall x y, In (f, x, y) ts -> In a [x; y] -> In b [x; y] -> False) ->
    (exists h1, complex_link f a b h = (Ok tt, h1) /\ sinv comp (ts ++ [(f, a, b)]) h1 /\ restE h1 = restE h) \/
    (complex_link f a b h = (Raise EException, h) /\
     exists f1 f2 x1 y1 x2 y2, f1 <> f2 /\ f1 <> f /\ f2 <> f /\
       In (f1, x1, y1) ts /\ In (f2, x2, y2) ts /\
       In a [x1; y1] /\ In b [x1; y1] /\ In a [x2; y2] /\ In b [x2; y2]).
  Proof.
    intros comp ts f a b h S Se Ha Hb Hc Hf Hab Hfr. pose proof (s_w _ _ _ S) as W.
    destruct (find_edge h a b) as [e|] eqn:Ee.
    - destruct (find_edge_some comp ts h a b e W Se Ha Hb Hc Ee) as (He & Hae & Hbe).
      assert (Hpair : forall g, In g (e_faces h e) ->
        exists x y, In (g, x, y) ts /\ In a [x; y] /\ In b [x; y]).
      { intros g Hg. apply (s_ef _ _ _ S e g He) in Hg as (x & y & K1 & K2 & K3). exists x, y.
        destruct (s_task _ _ _ S _ _ _ K1) as [Hxy _]. pose proof (w_len _ _ _ W e He) as L.
        split; [auto|]. split.
        - destruct (two_in _ _ x y a L Hxy K2 K3 Hae) as [<-|<-]; cbn; auto.
        - destruct (two_in _ _ x y b L Hxy K2 K3 Hbe) as [<-|<-]; cbn; auto. }
      assert (Hfe : ~ In f (e_faces h e)).
      { intros K. destruct (Hpair f K) as (x & y & K1 & K2 & K3). exact (Hfr x y K1 K2 K3). }
      destruct (Nat.eq_dec (length (e_faces h e)) 2) as [L|L].
      + right. split; [exact (complex_link_full _ _ _ _ _ Ee L)|].
        destruct (two_faces _ L) as (f1 & f2 & El & Hne); [apply (s_faces _ _ _ S e He)|].
        destruct (Hpair f1) as (x1 & y1 & P1); [rewrite El; left; auto|].
        destruct (Hpair f2) as (x2 & y2 & P2); [rewrite El; right; left; auto|].
        exists f1, f2, x1, y1, x2, y2. rewrite El in Hfe. cbn in Hfe. tauto.
      + left. destruct (complex_link_found f a b h e Ee L) as (h1 & E2 & A1 & A2 & A3 & A4 & A5 & A6 & A7 & A8).
        exists h1. split; [auto|]. split; [|auto].
        apply (sinv_found comp ts f a b e h h1); auto.
        exact (winv_found comp ts f a b e h h1 W He Hae Hbe Hf L A1 A3 A4 A5 A6 A7 A8).
    - left. destruct (complex_link_new f a b h Ee) as (h1 & E2 & A1 & A2 & A3 & A4 & A5 & A6 & A7 & A8).
      exists h1. split; [auto|]. split; [|auto].
      apply (sinv_new comp ts f a b h h1); auto.
      exact (winv_new comp ts f a b h h1 W Ha Hb Hc Hf Ee A1 A3 A4 A5 A6 A7 A8).
  Qed.

  (* ---------------------------------------------------------------- *)
  (** ** All tasks *)

  Definition tasks_of (h : heap) (f : nat) : list task :=
    match f_nodes h f with
    | [a; b; c] => [(f, a, b); (f, a, c); (f, b, c)]
    | _ => []
    end.

  Definition run_task (t : task) : M unit := let '(f, a, b) := t in complex_link f a b.

  Lemma run_task_keeps : forall t, keeps f_nodes (run_task t).
  Proof. intros [[f a] b]. unfold run_task. keeps_tac. Qed.

  Lemma link_face_edges_tasks : forall f h, length (f_nodes h f) = 3 ->
    link_face_edges f h = for_each (tasks_of h f) run_task h.
  Proof.
    intros f h L. unfold link_face_edges, tasks_of. rewrite bind_gets.
    destruct (f_nodes h f) as [|a [|b [|c [|]]]]; try discriminate.
    change (py_get [a; b; c] 0) with (Ok a). change (py_get [a; b; c] 1) with (Ok b).
    change (py_get [a; b; c] 2) with (Ok c). rewrite !bind_lift_ok.
    cbn [for_each run_task].
    apply bind_ext. intros [] h1 _. apply bind_ext. intros [] h2 _.
    unfold bind. destruct (complex_link f b c h2) as [[[]|x] h3]; auto.
  Qed.

  Lemma tasks_of_ext : forall h h' f, f_nodes h' = f_nodes h -> tasks_of h' f = tasks_of h f.
  Proof. intros h h' f E. unfold tasks_of. rewrite E. auto. Qed.

  Lemma link_faces_tasks : forall fs h, (forall f, In f fs -> length (f_nodes h f) = 3) ->
    for_each fs link_face_edges h = for_each (flat_map (tasks_of h) fs) run_task h.
  Proof.
    induction fs as [|f fs IH]; intros h H; auto.
    cbn [flat_map]. rewrite for_each_app. cbn [for_each].
    rewrite (bind_eq _ _ (link_face_edges f) (for_each (tasks_of h f) run_task)
               (fun _ => for_each fs link_face_edges) (fun _ => for_each fs link_face_edges) h);
      [|apply link_face_edges_tasks; apply H; left; auto|auto].
    apply bind_ext. intros [] h1 E.
    assert (Ef : f_nodes h1 = f_nodes h).
    { eapply keeps_run; [|exact E]. apply keeps_for_each. intros; apply run_task_keeps. }
    rewrite IH by (intros g Hg; rewrite Ef; apply H; right; auto).
    replace (flat_map (tasks_of h1) fs) with (flat_map (tasks_of h) fs); auto.
    apply flat_map_ext. intros g. symmetry. apply tasks_of_ext; auto.
  Qed.

  (** State before the edges are created. *)
  Record ready (comp : nat -> nat) (h : heap) : Prop := {
    rd_sep : sep comp h;
    rd_faces : NoDup (g_faces h);
    rd_nodes : forall f, In f (g_faces h) -> length (f_nodes h f) = 3 /\ incl (f_nodes h f) (g_nodes h);
    rd_comp : forall f a b, In f (g_faces h) -> In a (f_nodes h f) -> In b (f_nodes h f) -> comp a = comp b;
    rd_ge : g_edges h = [];
    rd_ne : forall n, In n (g_nodes h) -> n_edges h n = [];
    rd_fe : forall f, In f (g_faces h) -> f_edges h f = []
  }.

  Definition all_tasks (h : heap) : list task := flat_map (tasks_of h) (g_faces h).

  Lemma in_tasks : forall h f a b, length (f_nodes h f) = 3 -> In (f, a, b) (tasks_of h f) ->
    In a (f_nodes h f) /\ In b (f_nodes h f).
  Proof.
    intros h f a b L H. unfold tasks_of in H. destruct (f_nodes h f) as [|x [|y [|z [|]]]]; try discriminate.
    cbn in *. destruct H as [H|[H|[H|[]]]]; injection H as <- <-; auto.
  Qed.

  Lemma tasks_face : forall h f g a b, In (g, a, b) (tasks_of h f) -> g = f.
  Proof.
    intros h f g a b H. unfold tasks_of in H. destruct (f_nodes h f) as [|x [|y [|z [|]]]]; try contradiction.
    cbn in *. destruct H as [H|[H|[H|[]]]]; injection H as <- _ _; auto.
  Qed.

  Lemma in_all_tasks : forall comp h f a b, ready comp h -> In (f, a, b) (all_tasks h) ->
    In f (g_faces h) /\ In (f, a, b) (tasks_of h f) /\ In a (f_nodes h f) /\ In b (f_nodes h f).
  Proof.
    intros comp h f a b R H. unfold all_tasks in H. apply in_flat_map in H as (g & Hg & H).
    pose proof (tasks_face _ _ _ _ _ H) as ->. split; [auto|]. split; [auto|].
    apply in_tasks; auto. apply (rd_nodes _ _ R); auto.
  Qed.

  Lemma task_exists : forall comp h f a b, ready comp h -> In f (g_faces h) -> a <> b ->
    In a (f_nodes h f) -> In b (f_nodes h f) -> In (f, a, b) (all_tasks h) \/ In (f, b, a) (all_tasks h).
  Proof.
    intros comp h f a b R Hf Hab Ha Hb. unfold all_tasks. rewrite !in_flat_map.
    assert (G : In (f, a, b) (tasks_of h f) \/ In (f, b, a) (tasks_of h f)).
    { unfold tasks_of. destruct (rd_nodes _ _ R f Hf) as [L _].
      destruct (f_nodes h f) as [|x [|y [|z [|]]]]; try discriminate.
      cbn in *. destruct Ha as [<-|[<-|[<-|[]]]], Hb as [<-|[<-|[<-|[]]]]; auto; congruence. }
    destruct G as [G|G]; [left|right]; exists f; auto.
  Qed.

  Lemma winv_start : forall comp h, g_edges h = [] -> (forall n, In n (g_nodes h) -> n_edges h n = []) ->
    winv comp [] h.
  Proof.
    intros comp h He Hn. constructor; rewrite ?He; try (intros; contradiction).
    - constructor.
    - intros i e H. destruct i; discriminate.
    - intros n H. rewrite Hn by auto. apply incl_refl.
  Qed.

  Lemma restE_fields : forall h h', restE h' = restE h ->
    g_nodes h' = g_nodes h /\ g_faces h' = g_faces h /\ f_nodes h' = f_nodes h /\ n_rc h' = n_rc h /\
    n_faces h' = n_faces h /\ next_n h' = next_n h /\ next_f h' = next_f h.
  Proof. intros h h' E. unfold restE in E. injection E. intros. repeat split; auto. Qed.

  Lemma edges_weak : forall comp h h', ready comp h ->
    for_each (g_faces h) link_face_edges h = (Ok tt, h') ->
    winv comp (all_tasks h) h' /\ restE h' = restE h.
  Proof.
    intros comp h h' R E. rewrite link_faces_tasks in E by (intros f Hf; apply (rd_nodes _ _ R f Hf)).
    fold (all_tasks h) in E.
    apply (for_each_inv _ _ _ (fun done x => winv comp done x /\ restE x = restE h) _ _ E).
    - split; auto. apply winv_start; [apply (rd_ge _ _ R)|apply (rd_ne _ _ R)].
    - intros done [[f a] b] rest h1 h2 El [W Er] Hb.
      assert (Hin : In (f, a, b) (all_tasks h)) by (rewrite El; apply in_app_iff; right; left; auto).
      destruct (in_all_tasks _ _ _ _ _ R Hin) as (Hf & _ & Ha & Hb').
      destruct (rd_nodes _ _ R f Hf) as [_ Hi].
      destruct (restE_fields _ _ Er) as (E1 & E2 & E3 & E4 & _).
      destruct (winv_step comp done f a b h1 h2) as [W2 Er2]; rewrite ?E1, ?E2; auto.
      + intros n m. rewrite E1, E4. apply (rd_sep _ _ R).
      + apply (rd_comp _ _ R f); auto.
      + split; auto. congruence.
  Qed.

  Lemma NoDup_flat_map : forall A B (g : A -> list B) l, NoDup l -> (forall x, In x l -> NoDup (g x)) ->
    (forall x y z, In x l -> In y l -> In z (g x) -> In z (g y) -> x = y) -> NoDup (flat_map g l).
  Proof.
    intros A B g l. induction l as [|x l IH]; intros N G D; cbn; [constructor|]. inv N.
    assert (N2 : NoDup (flat_map g l)).
    { apply IH; auto; intros. - apply G; right; auto. - eapply D; eauto; right; auto. }
    assert (D2 : forall z, In z (g x) -> ~ In z (flat_map g l)).
    { intros z Hz K. apply in_flat_map in K as (y & Hy & K).
      assert (x = y) by (eapply D; eauto; [left|right]; auto). subst. auto. }
    specialize (G x (or_introl eq_refl)). clear - N2 D2 G. induction (g x) as [|u l' IH']; cbn; auto.
    inv G. constructor.
    - rewrite in_app_iff. intros [K|K]; auto. apply (D2 u); auto. left; auto.
    - apply IH'; auto. intros z Hz. apply D2. right; auto.
  Qed.

  Definition nd_faces (h : heap) : Prop := forall f, In f (g_faces h) -> NoDup (f_nodes h f).

  Lemma tasks_nodup : forall comp h, ready comp h -> nd_faces h -> NoDup (all_tasks h).
  Proof.
    intros comp h R N. apply NoDup_flat_map.
    - apply (rd_faces _ _ R).
    - intros f Hf. specialize (N f Hf). unfold tasks_of. destruct (f_nodes h f) as [|x [|y [|z [|]]]]; try constructor.
      all: inv N; inv H2; inv H4; cbn in *.
      + intros [K|[K|[]]]; injection K; intros; subst; tauto.
      + constructor; [|constructor; [intros []|constructor]].
        intros [K|[]]; injection K; intros; subst; tauto.
    - intros f g [[u a] b] Hf Hg K1 K2. apply tasks_face in K1. apply tasks_face in K2. congruence.
  Qed.

  Lemma tasks_pair : forall h f a b x y, NoDup (f_nodes h f) ->
    In (f, a, b) (tasks_of h f) -> In (f, x, y) (tasks_of h f) -> In a [x; y] -> In b [x; y] ->
    (f, a, b) = (f, x, y).
  Proof.
    intros h f a b x y N H1 H2 Ha Hb. unfold tasks_of in *.
    destruct (f_nodes h f) as [|u [|v [|w [|]]]]; try contradiction.
    inversion N as [|? ? N1 N2]; subst. inversion N2 as [|? ? N3 N4]; subst. cbn in N1, N3.
    destruct H1 as [H1|[H1|[H1|[]]]]; injection H1 as <- <-;
      destruct H2 as [H2|[H2|[H2|[]]]]; injection H2 as <- <-; auto; exfalso;
      destruct Ha as [Ha|[Ha|[]]], Hb as [Hb|[Hb|[]]]; subst; tauto.
  Qed.

  (** Three different faces share two different nodes. *)
  Definition three_nodes (h : heap) : Prop :=
    exists f1 f2 f3 a b, In f1 (g_faces h) /\ In f2 (g_faces h) /\ In f3 (g_faces h) /\
      f1 <> f2 /\ f1 <> f3 /\ f2 <> f3 /\ a <> b /\
      (In a (f_nodes h f1) /\ In b (f_nodes h f1)) /\ (In a (f_nodes h f2) /\ In b (f_nodes h f2)) /\
      (In a (f_nodes h f3) /\ In b (f_nodes h f3)).

  Lemma edges_strong : forall comp h, ready comp h -> nd_faces h -> ~ three_nodes h ->
    exists h', for_each (g_faces h) link_face_edges h = (Ok tt, h') /\
      sinv comp (all_tasks h) h' /\ restE h' = restE h.
  Proof.
    intros comp h R N T3. rewrite link_faces_tasks by (intros f Hf; apply (rd_nodes _ _ R f Hf)).
    fold (all_tasks h). pose proof (tasks_nodup comp h R N) as Nt.
    apply (for_each_ok _ _ _ (fun done x => sinv comp done x /\ restE x = restE h)).
    - split; auto. constructor; rewrite ?(rd_ge _ _ R); try (intros; contradiction).
      + apply winv_start; [apply (rd_ge _ _ R)|apply (rd_ne _ _ R)].
      + intros f Hf. rewrite (rd_fe _ _ R f Hf). split; [constructor|apply incl_refl].
      + intros f Hf. rewrite (rd_fe _ _ R f Hf). auto.
      + intros n Hn. rewrite (rd_ne _ _ R n Hn). constructor.
    - intros done [[f a] b] rest h1 El [S Er].
      assert (Hin : In (f, a, b) (all_tasks h)) by (rewrite El; apply in_app_iff; right; left; auto).
      assert (Hd : forall t, In t done -> In t (all_tasks h)) by (intros t Ht; rewrite El; apply in_app_iff; auto).
      destruct (in_all_tasks _ _ _ _ _ R Hin) as (Hf & Ht & Ha & Hb').
      destruct (rd_nodes _ _ R f Hf) as [_ Hi].
      destruct (restE_fields _ _ Er) as (E1 & E2 & E3 & E4 & _).
      assert (Hab : a <> b).
      { specialize (N f Hf). intros ->. unfold tasks_of in Ht.
        destruct (f_nodes h f) as [|u [|v [|w [|]]]]; try contradiction.
        inv N. inv H2. cbn in *. destruct Ht as [Ht|[Ht|[Ht|[]]]]; injection Ht; intros; subst; tauto. }
      destruct (sinv_step comp done f a b h1) as [(h2 & K1 & K2 & K3)|(_ & K)]; rewrite ?E1, ?E2; auto.
      + intros n m. rewrite E1, E4. apply (rd_sep _ _ R).
      + apply (rd_comp _ _ R f); auto.
      + intros x y Hxy Kx Ky. assert (E : (f, a, b) = (f, x, y)).
        { apply (tasks_pair h); auto. apply Hd in Hxy. apply (in_all_tasks _ _ _ _ _ R Hxy). }
        rewrite <- E in Hxy. rewrite El in Nt. apply NoDup_remove_2 in Nt. apply Nt. apply in_app_iff; auto.
      + exists h2. split; [exact K1|]. split; auto. congruence.
      + exfalso. destruct K as (f1 & f2 & x1 & y1 & x2 & y2 & D1 & D2 & D3 & I1 & I2 & P1 & P2 & P3 & P4).
        apply Hd in I1. apply Hd in I2.
        destruct (in_all_tasks _ _ _ _ _ R I1) as (G1 & _ & G2 & G3).
        destruct (in_all_tasks _ _ _ _ _ R I2) as (G4 & _ & G5 & G6).
        apply T3. exists f, f1, f2, a, b.
        assert (Q : forall x y (l : list nat) c, In x l -> In y l -> In c [x; y] -> In c l).
        { intros x y l c Hx Hy [<-|[<-|[]]]; auto. }
        repeat (split; [auto; fail|]). split; [split; eauto|]. split; eauto.
  Qed.

  Lemma edges_three : forall comp h h', ready comp h ->
    for_each (g_faces h) link_face_edges h = (Ok tt, h') -> ~ three_nodes h.
  Proof.
    intros comp h h' R E T3. destruct (edges_weak comp h h' R E) as [W Er].
    destruct T3 as (f1 & f2 & f3 & a & b & H1 & H2 & H3 & D1 & D2 & D3 & Hab & [A1 B1] & [A2 B2] & [A3 B3]).
    assert (G : forall f, In f (g_faces h) -> In a (f_nodes h f) -> In b (f_nodes h f) ->
      exists e, In e (g_edges h') /\ In a (e_nodes h' e) /\ In b (e_nodes h' e) /\ In f (e_faces h' e)).
    { intros f Hf Ha Hb. destruct (task_exists comp h f a b R Hf Hab Ha Hb) as [K|K].
      - apply (w_done _ _ _ W f a b K Hab).
      - destruct (w_done _ _ _ W f b a K) as (e & K1 & K2 & K3 & K4); [congruence|]. exists e. auto. }
    destruct (G f1 H1 A1 B1) as (e1 & P1 & Q1 & R1 & S1).
    destruct (G f2 H2 A2 B2) as (e2 & P2 & Q2 & R2 & S2).
    destruct (G f3 H3 A3 B3) as (e3 & P3 & Q3 & R3 & S3).
    assert (e2 = e1) by (apply (w_uniq _ _ _ W a b); auto).
    assert (e3 = e1) by (apply (w_uniq _ _ _ W a b); auto). subst e2 e3.
    pose proof (w_two _ _ _ W e1 P1) as L. clear - L S1 S2 S3 D1 D2 D3.
    destruct (e_faces h' e1) as [|x [|y [|]]]; cbn in *; lia.
  Qed.

  Lemma count_tasks : forall h fs f, NoDup fs -> (forall g, In g fs -> length (f_nodes h g) = 3) -> In f fs ->
    count_occ Nat.eq_dec (map task_face (flat_map (tasks_of h) fs)) f = 3.
  Proof.
    intros h fs f. induction fs as [|g fs IH]; intros N L Hin; [destruct Hin|]. inv N.
    cbn [flat_map]. rewrite map_app, count_occ_app.
    assert (E : map task_face (tasks_of h g) = [g; g; g]).
    { unfold tasks_of. specialize (L g (or_introl eq_refl)).
      destruct (f_nodes h g) as [|x [|y [|z [|]]]]; try discriminate. reflexivity. }
    rewrite E. destruct (Nat.eq_dec g f) as [->|Hne].
    - rewrite (proj1 (count_occ_not_In Nat.eq_dec (map task_face (flat_map (tasks_of h) fs)) f)).
      + cbn [count_occ]. destruct (Nat.eq_dec f f); [reflexivity|congruence].
      + intros K. apply in_map_iff in K as ([[u a] b] & Eu & K). unfold task_face in Eu. cbn in Eu. subst u.
        apply in_flat_map in K as (g & Hg & K). apply tasks_face in K. subst. auto.
    - cbn [count_occ]. destruct (Nat.eq_dec g f); [congruence|]. destruct Hin as [->|Hin]; [congruence|].
      apply IH; auto. intros; apply L; right; auto.
  Qed.

  Lemma NoDup_count_le : forall (l : list nat), (forall x, In x l -> count_occ Nat.eq_dec l x <= 1) -> NoDup l.
  Proof.
    intros l H. apply (NoDup_count_occ Nat.eq_dec). intros x.
    destruct (in_dec Nat.eq_dec x l) as [Hx|Hx]; auto. rewrite (proj1 (count_occ_not_In Nat.eq_dec l x) Hx). lia.
  Qed.

  Lemma topo_of : forall comp h h', ready comp h -> nd_faces h -> incid h ->
    NoDup (g_nodes h) -> (forall n, In n (g_nodes h) -> n < next_n h) ->
    (forall f, In f (g_faces h) -> f < next_f h) ->
    sinv comp (all_tasks h) h' -> restE h' = restE h -> topo_ok h'.
  Proof.
    intros comp h h' R N I Nn An Af S Er. pose proof (s_w _ _ _ S) as W.
    destruct (restE_fields _ _ Er) as (E1 & E2 & E3 & E4 & E5 & E6 & E7).
    constructor; rewrite ?E1, ?E2, ?E3, ?E5, ?E6, ?E7.
    - auto.
    - apply (w_nd _ _ _ W).
    - apply (rd_faces _ _ R).
    - auto.
    - apply (w_alloc _ _ _ W).
    - auto.
    - intros f Hf. destruct (rd_nodes _ _ R f Hf). auto.
    - intros f Hf. rewrite <- E2 in Hf. pose proof (s_len _ _ _ S f Hf) as L. rewrite E2 in Hf.
      unfold all_tasks in L. rewrite count_tasks in L; auto.
      + split; [auto|]. apply (s_fnd _ _ _ S). congruence.
      + apply (rd_faces _ _ R).
      + intros g Hg. apply (rd_nodes _ _ R g Hg).
    - intros e He. split; [apply (w_len _ _ _ W); auto|]. split; [apply (s_nodes _ _ _ S); auto|].
      rewrite <- E1. apply (w_nodes _ _ _ W); auto.
    - intros e He. destruct (s_faces _ _ _ S e He) as [K1 K2]. pose proof (w_two _ _ _ W e He).
      split; [lia|]. split; [auto|]. rewrite <- E2. apply (w_faces _ _ _ W); auto.
    - intros n Hn. rewrite <- E1 in Hn. split; [apply (s_n _ _ _ S); auto|apply (w_nedges _ _ _ W); auto].
    - intros n Hn. split; [|apply (in_faces _ I); auto]. apply NoDup_count_le. intros f Hf.
      apply (in_faces _ I n Hn) in Hf. rewrite (in_count _ I n f Hn Hf).
      apply (proj1 (NoDup_count_occ Nat.eq_dec _) (N f Hf)).
    - intros n e Hn He. apply (w_ne _ _ _ W); congruence.
    - intros n f Hn Hf. rewrite !(count_occ_In Nat.eq_dec), (in_count _ I n f Hn Hf). tauto.
    - intros e f He Hf. apply (s_fe _ _ _ S); congruence.
    - intros f e Hf He. assert (Hf' : In f (g_faces h')) by congruence.
      assert (Hge : In e (g_edges h')) by (apply (s_fnd _ _ _ S f Hf'); auto).
      apply (s_fe _ _ _ S e f Hge Hf') in He. apply (s_ef _ _ _ S e f Hge) in He as (a & b & K1 & K2 & K3).
      destruct (in_all_tasks _ _ _ _ _ R K1) as (_ & _ & Ha & Hb).
      destruct (s_task _ _ _ S _ _ _ K1) as [Hab _].
      intros x Hx. destruct (two_in _ _ a b x (w_len _ _ _ W e Hge) Hab K2 K3 Hx) as [->| ->]; auto.
    - intros f a b Hf Ha Hb Hab.
      assert (G : exists e, In e (g_edges h') /\ In a (e_nodes h' e) /\ In b (e_nodes h' e) /\ In f (e_faces h' e)).
      { destruct (task_exists comp h f a b R Hf Hab Ha Hb) as [K|K].
        - apply (w_done _ _ _ W f a b K Hab).
        - destruct (w_done _ _ _ W f b a K) as (e & K1 & K2 & K3 & K4); [congruence|]. exists e. auto. }
      destruct G as (e & K1 & K2 & K3 & K4). exists e. split; auto.
      apply (s_fe _ _ _ S e f K1); auto. congruence.
    - intros e1 e2 H1 H2 Hi. pose proof (w_len _ _ _ W e1 H1) as L. pose proof (s_nodes _ _ _ S e1 H1) as Nd.
      destruct (two_faces _ L Nd) as (a & b & El & Hab). rewrite El in Hi.
      apply (w_uniq _ _ _ W a b); auto; rewrite ?El; try (left; auto; fail); try (right; left; auto; fail).
      + apply Hi. left; auto.
      + apply Hi. right; left; auto.
  Qed.
End Edges.
