(** What Grid.load does with a face two corners of which are the same node. *)

From Coq Require Import ZArith NArith Ascii String Bool Lia List Permutation.
From Verif Require Import Py PyLemmas Heap HeapLemmas GridModel GridSpec DecompProofs GridIO FileSpec
  Frames LoadParse LoadPlace LoadEdges LoadMain LoadFresh LoadProps.
Import ListNotations.
Open Scope list_scope.
Open Scope nat_scope.

Section Degenerate.
  Context {F : FloatOps}.
  #[local] Strategy expand [load complex_link link_face_edges for_each].

  (** How many of the tasks link the face [f] between [a] and [b]. *)
  Definition same_pair (a b x y : nat) : bool := ((x =? a) && (y =? b)) || ((x =? b) && (y =? a)).
  Definition links_it (f a b : nat) (t : task) : bool := let '(g, x, y) := t in (g =? f) && same_pair a b x y.
  Definition links (ts : list task) (f a b : nat) : nat := length (filter (links_it f a b) ts).
  Notation occ := (count_occ Nat.eq_dec).

  Lemma links_app : forall ts us f a b, links (ts ++ us) f a b = links ts f a b + links us f a b.
  Proof. intros. unfold links. rewrite filter_app, app_length. reflexivity. Qed.

  Lemma links_one : forall t f a b, links [t] f a b = if links_it f a b t then 1 else 0.
  Proof. intros. unfold links. cbn [filter]. destruct (links_it f a b t); reflexivity. Qed.

  Lemma links_it_true : forall f a b g x y, links_it f a b (g, x, y) = true ->
    g = f /\ ((x = a /\ y = b) \/ (x = b /\ y = a)).
  Proof.
    intros f a b g x y H. unfold links_it, same_pair in H. apply andb_true_iff in H as [H1 H2].
    apply Nat.eqb_eq in H1. split; [auto|]. apply orb_true_iff in H2 as [H2|H2]; apply andb_true_iff in H2 as [H2 H3];
      apply Nat.eqb_eq in H2; apply Nat.eqb_eq in H3; auto.
  Qed.

  Lemma links_pos : forall ts f a b, links ts f a b <> 0 -> In (f, a, b) ts \/ In (f, b, a) ts.
  Proof.
    intros ts f a b H. unfold links in H. destruct (filter (links_it f a b) ts) as [|[[g x] y] r] eqn:E; [exfalso; apply H; reflexivity|].
    assert (K : In (g, x, y) (filter (links_it f a b) ts)) by (rewrite E; left; reflexivity).
    apply filter_In in K as [K1 K2]. apply links_it_true in K2 as [-> [[-> ->]|[-> ->]]]; auto.
  Qed.

  Record cinv (ts : list task) (h : heap) : Prop := {
    c_two : forall f a b e, In e (g_edges h) -> a <> b -> In a (e_nodes h e) -> In b (e_nodes h e) ->
      links ts f a b <= occ (e_faces h e) f;
    c_one : forall f a e r, In a (g_nodes h) -> n_edges h a = e :: r -> links ts f a a <= occ (e_faces h e) f;
    c_nil : forall f a, In a (g_nodes h) -> n_edges h a = [] -> links ts f a a = 0
  }.

  Lemma find_edge_self : forall comp ts h a, winv comp ts h -> In a (g_nodes h) ->
    find_edge h a a = match n_edges h a with [] => None | e :: _ => Some e end.
  Proof.
    intros comp ts h a W Ha. unfold find_edge. destruct (n_edges h a) as [|e r] eqn:E; [reflexivity|]. cbn [find].
    assert (K : mem (is_near h a) (e_nodes h e) = true); [|rewrite K; reflexivity].
    unfold mem. apply existsb_exists. exists a. split; [|apply rc_eqb_eq; reflexivity].
    apply (w_ne _ _ _ W a e Ha); [|rewrite E; left; reflexivity]. apply (w_nedges _ _ _ W a Ha). rewrite E. left. reflexivity.
  Qed.

  Lemma cinv_step : forall comp ts f a b h h1, winv comp ts h -> cinv ts h -> sep comp h ->
    In a (g_nodes h) -> In b (g_nodes h) -> comp a = comp b -> In f (g_faces h) ->
    complex_link f a b h = (Ok tt, h1) -> cinv (ts ++ [(f, a, b)]) h1.
  Proof.
    intros comp ts f a b h h1 W C Sp Ha Hb Hc Hf E. destruct (find_edge h a b) as [e|] eqn:Ee.
    - destruct (find_edge_some comp ts h a b e W Sp Ha Hb Hc Ee) as (He & Hae & Hbe).
      destruct (Nat.eq_dec (length (e_faces h e)) 2) as [L|L].
      { rewrite (complex_link_full _ _ _ _ _ Ee L) in E. discriminate. }
      destruct (complex_link_found f a b h e Ee L) as (h2 & E2 & A1 & _ & A3 & A4 & A5 & A6 & A7 & A8).
      rewrite E in E2. injection E2 as <-.
      assert (Eg : g_nodes h1 = g_nodes h) by (unfold restE in A8; congruence).
      assert (Mono : forall x g, occ (e_faces h x) g <= occ (e_faces h1 x) g).
      { intros x g. rewrite A1. destruct (Nat.eqb_spec x e) as [->|]; [|lia]. rewrite count_occ_app. lia. }
      assert (More : occ (e_faces h1 e) f = S (occ (e_faces h e) f)).
      { rewrite A1, Nat.eqb_refl, count_occ_app. cbn. destruct (Nat.eq_dec f f); [lia|congruence]. }
      constructor; rewrite ?A3, ?A5, ?A7, ?Eg.
      + intros g u v x Hx Huv Hu Hv. rewrite links_app, links_one.
        pose proof (c_two _ _ C g u v x Hx Huv Hu Hv) as K. destruct (links_it g u v (f, a, b)) eqn:El.
        * apply links_it_true in El as [<- El].
          assert (x = e).
          { apply (w_uniq _ _ _ W u v); auto; destruct El as [[<- <-]|[<- <-]]; auto. }
          subst x. lia.
        * specialize (Mono x g). lia.
      + intros g u x r Hu Hx. rewrite links_app, links_one.
        pose proof (c_one _ _ C g u x r Hu Hx) as K. destruct (links_it g u u (f, a, b)) eqn:El.
        * apply links_it_true in El as [<- El]. assert (a = u /\ b = u) as [-> ->] by tauto.
          rewrite (find_edge_self comp ts h u W Hu), Hx in Ee. injection Ee as ->. lia.
        * specialize (Mono x g). lia.
      + intros g u Hu Hx. rewrite links_app, links_one. rewrite (c_nil _ _ C g u Hu Hx).
        destruct (links_it g u u (f, a, b)) eqn:El; [|reflexivity]. exfalso.
        apply links_it_true in El as [<- El]. assert (a = u /\ b = u) as [-> ->] by tauto.
        rewrite (find_edge_self comp ts h u W Hu), Hx in Ee. discriminate.
    - destruct (complex_link_new f a b h Ee) as (h2 & E2 & A1 & _ & A3 & A4 & A5 & A6 & A7 & A8).
      rewrite E in E2. injection E2 as <-.
      assert (Eg : g_nodes h1 = g_nodes h) by (unfold restE in A8; congruence).
      set (n := next_e h) in *.
      assert (Hne : forall x, In x (g_edges h) -> (x =? n) = false).
      { intros x Hx. apply Nat.eqb_neq. apply (w_alloc _ _ _ W) in Hx. unfold n. lia. }
      pose proof (find_edge_none comp ts h a b) as Hno.
      constructor; rewrite ?A7, ?Eg.
      + intros g u v x Hx Huv Hu Hv. rewrite A5 in Hu, Hv. rewrite A1, links_app, links_one.
        apply in_app_iff in Hx as [Hx|[<-|[]]].
        * rewrite (Hne x Hx) in Hu, Hv |- *. pose proof (c_two _ _ C g u v x Hx Huv Hu Hv) as K.
          destruct (links_it g u v (f, a, b)) eqn:El; [|lia]. exfalso.
          apply links_it_true in El as [<- El]. apply (Hno x); auto; destruct El as [[-> ->]|[-> ->]]; auto.
        * rewrite Nat.eqb_refl in Hu, Hv |- *.
          assert (Hz : links ts g u v = 0).
          { destruct (Nat.eq_dec (links ts g u v) 0) as [K|K]; [auto|]. exfalso.
            assert (Q : exists e, In e (g_edges h) /\ In u (e_nodes h e) /\ In v (e_nodes h e)).
            { apply links_pos in K as [K|K].
              - destruct (w_done _ _ _ W g u v K Huv) as (e & Q1 & Q2 & Q3 & _). exists e. auto.
              - destruct (w_done _ _ _ W g v u K) as (e & Q1 & Q2 & Q3 & _); [congruence|]. exists e. auto. }
            destruct Q as (e & Q1 & Q2 & Q3). apply (Hno e); auto.
            - destruct (two_in _ [a; b] u v a eq_refl Huv Hu Hv) as [->| ->]; auto. left; auto.
            - destruct (two_in _ [a; b] u v b eq_refl Huv Hu Hv) as [->| ->]; auto. right; left; auto. }
          rewrite Hz. destruct (links_it g u v (f, a, b)) eqn:El; [|lia].
          apply links_it_true in El as [<- _]. cbn. destruct (Nat.eq_dec f f); [lia|congruence].
      + intros g u x r Hu Hx. rewrite A3 in Hx. rewrite A1, links_app, links_one.
        destruct (n_edges h u) as [|x' r'] eqn:En.
        * cbn [app] in Hx. rewrite (c_nil _ _ C g u Hu En).
          assert (x = n).
          { destruct (u =? a); [injection Hx; auto|]. destruct (u =? b); [injection Hx; auto|discriminate]. }
          subst x. rewrite Nat.eqb_refl. destruct (links_it g u u (f, a, b)) eqn:El; [|lia].
          apply links_it_true in El as [<- _]. cbn. destruct (Nat.eq_dec f f); [lia|congruence].
        * cbn [app] in Hx. injection Hx as Hx _. subst x'.
          assert (Hx : In x (g_edges h)) by (apply (w_nedges _ _ _ W u Hu); rewrite En; left; reflexivity).
          rewrite (Hne x Hx). pose proof (c_one _ _ C g u x r' Hu En) as K.
          destruct (links_it g u u (f, a, b)) eqn:El; [|lia]. exfalso.
          apply links_it_true in El as [<- El]. assert (a = u /\ b = u) as [-> ->] by tauto.
          rewrite (find_edge_self comp ts h u W Hu), En in Ee. discriminate.
      + intros g u Hu Hx. rewrite A3 in Hx. apply app_eq_nil in Hx as [Hx Hy]. apply app_eq_nil in Hy as [Hy Hz].
        rewrite links_app, links_one, (c_nil _ _ C g u Hu Hx).
        destruct (links_it g u u (f, a, b)) eqn:El; [|reflexivity]. exfalso.
        apply links_it_true in El as [<- El]. assert (a = u /\ b = u) as [-> ->] by tauto.
        rewrite Nat.eqb_refl in Hy. discriminate.
  Qed.

  Lemma edges_counted : forall comp h h', ready comp h ->
    for_each (g_faces h) link_face_edges h = (Ok tt, h') ->
    winv comp (all_tasks h) h' /\ cinv (all_tasks h) h' /\ restE h' = restE h.
  Proof.
    intros comp h h' R E. rewrite link_faces_tasks in E by (intros f Hf; apply (rd_nodes _ _ R f Hf)).
    fold (all_tasks h) in E. apply and_assoc.
    apply (for_each_inv _ _ _ (fun done x => (winv comp done x /\ cinv done x) /\ restE x = restE h) _ _ E).
    - split; auto. split; [apply winv_start; [apply (rd_ge _ _ R)|apply (rd_ne _ _ R)]|].
      constructor; try (intros; cbn; lia). 
    - intros done [[f a] b] rest h1 h2 El [[W C] Er] Hb.
      assert (Hin : In (f, a, b) (all_tasks h)) by (rewrite El; apply in_app_iff; right; left; auto).
      destruct (in_all_tasks _ _ _ _ _ R Hin) as (Hf & _ & Ha & Hb').
      destruct (rd_nodes _ _ R f Hf) as [_ Hi].
      destruct (restE_fields _ _ Er) as (E1 & E2 & E3 & E4 & _).
      assert (Sp : sep comp h1) by (intros n m; rewrite E1, E4; apply (rd_sep _ _ R)).
      pose proof (rd_comp _ _ R f a b Hf Ha Hb') as Hc.
      destruct (winv_step comp done f a b h1 h2) as [W2 Er2]; rewrite ?E1, ?E2; auto.
      split; [split; [auto|]|congruence].
      apply (cinv_step comp done f a b h1 h2); rewrite ?E1, ?E2; auto.
  Qed.

  Lemma links_flat : forall h fs f a b, In f fs -> links (tasks_of h f) f a b <= links (flat_map (tasks_of h) fs) f a b.
  Proof.
    intros h fs f a b Hf. apply in_split in Hf as (l & r & ->). rewrite flat_map_app. cbn [flat_map].
    rewrite !links_app. lia.
  Qed.

  (** A face of exactly two different nodes is twice on their edge, and it is alone there. *)
  Lemma edges_flat : forall comp h h' f a b, ready comp h ->
    for_each (g_faces h) link_face_edges h = (Ok tt, h') -> In f (g_faces h) -> a <> b ->
    In a (f_nodes h f) -> In b (f_nodes h f) -> ~ NoDup (f_nodes h f) ->
    (exists e, In e (g_edges h') /\ e_faces h' e = [f; f] /\ In a (e_nodes h' e) /\ In b (e_nodes h' e)) /\
    (forall g, In g (g_faces h) -> In a (f_nodes h g) -> In b (f_nodes h g) -> g = f).
  Proof.
    intros comp h h' f a b R E Hf Hab Ha Hb Hd. destruct (edges_counted comp h h' R E) as (W & C & Er).
    assert (G : forall g, In g (g_faces h) -> In a (f_nodes h g) -> In b (f_nodes h g) ->
      exists e, In e (g_edges h') /\ In a (e_nodes h' e) /\ In b (e_nodes h' e) /\ In g (e_faces h' e)).
    { intros g Hg Ka Kb. destruct (task_exists comp h g a b R Hg Hab Ka Kb) as [K|K].
      - apply (w_done _ _ _ W g a b K Hab).
      - destruct (w_done _ _ _ W g b a K) as (e & K1 & K2 & K3 & K4); [congruence|]. exists e. auto. }
    destruct (G f Hf Ha Hb) as (e & K1 & K2 & K3 & K4).
    assert (L2 : 2 <= links (tasks_of h f) f a b).
    { clear - Hab Ha Hb Hd R Hf. unfold tasks_of. destruct (rd_nodes _ _ R f Hf) as [L _].
      destruct (f_nodes h f) as [|x [|y [|z [|]]]]; try discriminate.
      unfold links, links_it, same_pair. cbn [filter]. rewrite Nat.eqb_refl. cbn [andb].
      assert (D : x = y \/ x = z \/ y = z).
      { destruct (Nat.eq_dec x y), (Nat.eq_dec x z), (Nat.eq_dec y z); auto. exfalso. apply Hd.
        repeat constructor; cbn; intuition congruence. }
      cbn [In] in Ha, Hb.
      repeat match goal with |- context [?u =? ?v] => destruct (Nat.eqb_spec u v) end; cbn [andb orb length];
        subst; try lia; exfalso; intuition congruence. }
    pose proof (links_flat h (g_faces h) f a b Hf) as L3. fold (all_tasks h) in L3.
    pose proof (c_two _ _ C f a b e K1 Hab K2 K3) as L4. pose proof (w_two _ _ _ W e K1) as L5.
    assert (Ef : e_faces h' e = [f; f]).
    { clear - L2 L3 L4 L5. destruct (e_faces h' e) as [|x [|y [|]]]; cbn [count_occ length] in *; try lia;
        repeat match type of L4 with context [Nat.eq_dec ?u ?v] => destruct (Nat.eq_dec u v) end; try lia. subst. reflexivity. }
    split; [exists e; auto|]. intros g Hg Ka Kb. destruct (G g Hg Ka Kb) as (e' & Q1 & Q2 & Q3 & Q4).
    assert (e' = e) by (apply (w_uniq _ _ _ W a b); auto). subst e'. rewrite Ef in Q4. cbn in Q4. intuition congruence.
  Qed.

  (** No face of one node only. *)
  Lemma edges_point : forall comp h h' f a, ready comp h ->
    for_each (g_faces h) link_face_edges h = (Ok tt, h') -> In f (g_faces h) -> f_nodes h f <> [a; a; a].
  Proof.
    intros comp h h' f a R E Hf Hn. destruct (edges_counted comp h h' R E) as (W & C & Er).
    destruct (rd_nodes _ _ R f Hf) as [_ Hi]. assert (Ha : In a (g_nodes h)) by (apply Hi; rewrite Hn; left; reflexivity).
    destruct (restE_fields _ _ Er) as (E1 & _).
    assert (L2 : links (tasks_of h f) f a a = 3).
    { unfold tasks_of. rewrite Hn. unfold links, links_it, same_pair. cbn [filter]. rewrite !Nat.eqb_refl. reflexivity. }
    pose proof (links_flat h (g_faces h) f a a Hf) as L3. fold (all_tasks h) in L3.
    rewrite <- E1 in Ha. destruct (n_edges h' a) as [|e r] eqn:En.
    - pose proof (c_nil _ _ C f a Ha En). lia.
    - pose proof (c_one _ _ C f a e r Ha En) as L4.
      assert (He : In e (g_edges h')) by (apply (w_nedges _ _ _ W a Ha); rewrite En; left; reflexivity).
      pose proof (w_two _ _ _ W e He) as L5. pose proof (count_occ_bound Nat.eq_dec f (e_faces h' e)). lia.
  Qed.

  (* ---------------------------------------------------------------- *)
  (** ** Files *)

  (** A file in the right form is loaded or refused with an exception. *)
  Lemma load_cases : forall merge text h evs, file_form [] (file_lines text) evs ->
    fst (load merge text h) = Ok tt \/ fst (load merge text h) = Raise EException.
  Proof.
    intros merge text h evs Hf. destruct (load merge text h) as [[[]|e] h'] eqn:E; [left; reflexivity|right]. cbn. f_equal.
    destruct (load_events merge text h evs Hf) as (h1 & P & N & _ & El). rewrite El in E.
    unfold finish in E. rewrite bind_gets in E.
    rewrite (bind_eq _ _ (for_each (g_faces h1) link_face_edges) (for_each (all_tasks h1) run_task)
       (fun _ => link_nodes_and_edges_to_zones) (fun _ => link_nodes_and_edges_to_zones) h1) in E; [| |auto].
    2:{ apply link_faces_tasks. intros f K. apply (placed_nodes3 _ _ _ P f K). }
    unfold bind in E. destruct (for_each (all_tasks h1) run_task h1) as [[[]|x] h2] eqn:Et.
    - exfalso. destruct (edges_any h1 h2) as [U Er].
      { exact (placed_nodes3 _ _ _ P). }
      { destruct P as (reps & Hr & Hi & Hfr & _). apply (fr_ge _ Hfr). }
      { destruct P as (reps & Hr & Hi & Hfr & _). apply (nr_edges _ _ _ _ Hr). }
      { rewrite <- Et. apply link_faces_tasks. intros f K. apply (placed_nodes3 _ _ _ P f K). }
      destruct (finish_tail merge _ h1 h2 P U Er) as (h3 & K & _). rewrite K in E. discriminate.
    - cbn in E. injection E as <- _. exact (tasks_raise _ _ _ _ Et).
  Qed.

  (** Before the edges: the faces of the file with their nodes. *)
  Lemma load_start : forall text h h' evs, load true text h = (Ok tt, h') -> file_form [] (file_lines text) evs ->
    exists comp h1 h2, ready comp h1 /\ for_each (g_faces h1) link_face_edges h1 = (Ok tt, h2) /\
      restE h2 = restE h1 /\ frameL h' = frameL h2 /\
      map (fun f => map (n_rc h1) (f_nodes h1 f)) (g_faces h1) = file_faces (zones_of evs) /\
      NoDup (map (n_rc h1) (g_nodes h1)).
  Proof.
    intros text h h' evs E Hf. destruct (load_events true text h evs Hf) as (h1 & P & N & _ & El). rewrite El in E.
    destruct (placed_ready _ _ _ P (or_introl eq_refl)) as (comp & R).
    unfold finish in E. rewrite bind_gets in E. apply bind_inv in E as ([] & h2 & E1 & E2).
    destruct (edges_weak comp h1 h2 R E1) as [W Er].
    destruct (finish_tail true _ h1 h2 P (winv_uinv _ _ _ W) Er) as (h3 & K1 & _ & _ & _ & K5 & _).
    rewrite E2 in K1. injection K1 as <-. exists comp, h1, h2. split; [exact R|]. split; [exact E1|]. split; [exact Er|].
    split; [exact K5|]. split; [exact (holds_faces _ _ (placed_holds _ _ _ P))|].
    destruct P as (reps & Hr & _). apply (nr_merge _ _ _ _ Hr). reflexivity.
  Qed.

  Lemma inj_nodup : forall (g : nat -> rc) l, (forall x y, In x l -> In y l -> g x = g y -> x = y) -> NoDup l -> NoDup (map g l).
  Proof.
    intros g l. induction l as [|x l IH]; intros J N; cbn; [constructor|]. inversion N as [|? ? N1 N2]; subst. constructor.
    - intros K. apply in_map_iff in K as (y & K1 & K2). apply N1. replace x with y; [auto|].
      apply J; [right; auto|left; auto|auto].
    - apply IH; auto. intros u v Hu Hv. apply J; right; auto.
  Qed.

  Lemma degenerate_main : forall text h h' evs i t p q, load true text h = (Ok tt, h') -> file_form [] (file_lines text) evs ->
    nth_error (file_faces (zones_of evs)) i = Some t -> ~ NoDup t -> In p t -> In q t -> p <> q ->
    exists f e a b, nth_error (g_faces h') i = Some f /\ In e (g_edges h') /\ e_faces h' e = [f; f] /\
      In a (e_nodes h' e) /\ In b (e_nodes h' e) /\ n_rc h' a = p /\ n_rc h' b = q /\
      (forall j t', nth_error (file_faces (zones_of evs)) j = Some t' -> In p t' -> In q t' -> j = i).
  Proof.
    intros text h h' evs i t p q E Hf Hi Hd Hp Hq Hpq.
    destruct (load_start text h h' evs E Hf) as (comp & h1 & h2 & R & E1 & Er & Fr & Hh & Nr).
    destruct (restE_fields _ _ Er) as (B1 & B2 & B3 & B4 & _).
    assert (C1 : g_faces h' = g_faces h2 /\ g_edges h' = g_edges h2 /\ e_faces h' = e_faces h2 /\ e_nodes h' = e_nodes h2 /\ n_rc h' = n_rc h2).
    { unfold frameL, mesh in Fr. injection Fr. intros. repeat split; assumption. }
    destruct C1 as (C1 & C2 & C3 & C4 & C5).
    assert (J : forall x y, In x (g_nodes h1) -> In y (g_nodes h1) -> n_rc h1 x = n_rc h1 y -> x = y).
    { intros x y Hx Hy K. apply (NoDup_map_inj _ _ (n_rc h1) (g_nodes h1)); auto. }
    rewrite <- Hh in Hi. rewrite nth_error_map in Hi. destruct (nth_error (g_faces h1) i) as [f|] eqn:Fi; [|discriminate].
    injection Hi as <-. apply in_map_iff in Hp as (a & Ea & Ha). apply in_map_iff in Hq as (b & Eb & Hb).
    pose proof (nth_error_In _ _ Fi) as Hfi. destruct (rd_nodes _ _ R f Hfi) as [_ I].
    assert (Hd1 : ~ NoDup (f_nodes h1 f)).
    { intros K. apply Hd. apply inj_nodup; [|exact K]. intros x y Hx Hy. apply J; auto. }
    destruct (edges_flat comp h1 h2 f a b R E1 Hfi) as [(e & K1 & K2 & K3 & K4) U]; [congruence|assumption|assumption|assumption|].
    exists f, e, a, b. rewrite C1, C2, C3, C4, C5, B2, B4. repeat (split; [assumption|]).
    intros j t' Hj Hp' Hq'. rewrite <- Hh in Hj. rewrite nth_error_map in Hj.
    destruct (nth_error (g_faces h1) j) as [g|] eqn:Gj; [|discriminate]. injection Hj as <-.
    apply in_map_iff in Hp' as (a' & Ea' & Ha'). apply in_map_iff in Hq' as (b' & Eb' & Hb').
    pose proof (nth_error_In _ _ Gj) as Hgj. destruct (rd_nodes _ _ R g Hgj) as [_ I'].
    assert (a' = a) by (apply J; auto; congruence). assert (b' = b) by (apply J; auto; congruence). subst a' b'.
    pose proof (U g Hgj Ha' Hb') as ->.
    apply (proj1 (NoDup_nth_error (g_faces h1)) (rd_faces _ _ R)); [apply nth_error_Some; congruence|congruence].
  Qed.

  Lemma point_main : forall text h evs p, file_form [] (file_lines text) evs ->
    In [p; p; p] (file_faces (zones_of evs)) -> fst (load true text h) = Raise EException.
  Proof.
    intros text h evs p Hf Hp. destruct (load_cases true text h evs Hf) as [K|K]; [|exact K]. exfalso.
    destruct (load true text h) as [r h'] eqn:E. cbn in K. subst r.
    destruct (load_start text h h' evs E Hf) as (comp & h1 & h2 & R & E1 & Er & Fr & Hh & Nr).
    rewrite <- Hh in Hp. apply in_map_iff in Hp as (f & Ef & Hfi). destruct (rd_nodes _ _ R f Hfi) as [L I].
    assert (J : forall x y, In x (g_nodes h1) -> In y (g_nodes h1) -> n_rc h1 x = n_rc h1 y -> x = y).
    { intros x y Hx Hy K. apply (NoDup_map_inj _ _ (n_rc h1) (g_nodes h1)); auto. }
    destruct (f_nodes h1 f) as [|x [|y [|z [|]]]] eqn:En; try discriminate. cbn [map] in Ef. injection Ef as Ex Ey Ez.
    assert (y = x) by (apply J; [apply I; cbn; auto|apply I; cbn; auto|congruence]).
    assert (z = x) by (apply J; [apply I; cbn; auto|apply I; cbn; auto|congruence]). subst y z.
    exact (edges_point comp h1 h2 f x R E1 Hfi En).
  Qed.

  Lemma shared_main : forall text h evs i j t t' p q, file_form [] (file_lines text) evs ->
    nth_error (file_faces (zones_of evs)) i = Some t -> nth_error (file_faces (zones_of evs)) j = Some t' -> i <> j ->
    ~ NoDup t -> In p t -> In q t -> p <> q -> In p t' -> In q t' -> fst (load true text h) = Raise EException.
  Proof.
    intros text h evs i j t t' p q Hf Hi Hj Hij Hd Hp Hq Hpq Hp' Hq'.
    destruct (load_cases true text h evs Hf) as [K|K]; [|exact K]. exfalso.
    destruct (load true text h) as [r h'] eqn:E. cbn in K. subst r.
    destruct (degenerate_main text h h' evs i t p q E Hf Hi Hd Hp Hq Hpq) as (f & e & a & b & _ & _ & _ & _ & _ & _ & _ & U).
    apply Hij. symmetry. exact (U j t' Hj Hp' Hq').
  Qed.
End Degenerate.
