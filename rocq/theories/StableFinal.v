(** Proofs: the order of nodes after storing and reading, and stability of stored files. *)

From Coq Require Import ZArith NArith Ascii String Bool Lia List Permutation.
From Verif Require Import Py PyLemmas Heap HeapLemmas GridModel GridSpec DecompProofs Mpi MpiSpec MpiProofs
  GridIO FileSpec TextLemmas StoreSpec StoreProofs LoadParse LoadPlace LoadEdges LoadMain RoundTrip LoadProps PlainProofs SamplesStore StableSpec StableProofs.
Import ListNotations.
Open Scope list_scope.
Open Scope nat_scope.

Lemma sublist_image : forall A B (f : A -> B) (p : A -> Prop) l l', sublist_of p l l' -> NoDup (map f l) ->
  sublist_of (fun y => In y (map f l')) (map f l) (map f l').
Proof.
  intros A B f p l l' H. induction H as [|x l l' Hp H IH|x l l' Hp H IH]; intros N; cbn [map] in *.
  - constructor.
  - inversion N as [|? ? N1 N2]; subst. apply sub_keep; [left; auto|]. apply (sublist_ext _ (fun y => In y (map f l'))); [apply IH; auto|].
    intros y Hy. cbn. split; [auto|]. intros [E|K]; [|auto]. subst. contradiction.
  - inversion N as [|? ? N1 N2]; subst. apply sub_drop; [|apply IH; auto].
    intros K. apply N1. apply in_map_iff in K as (y & Ey & Hy). rewrite <- Ey. apply in_map. apply (sublist_In _ _ _ _ y H) in Hy. tauto.
Qed.

Lemma Forall2_map_l : forall A B C (f : A -> B) (R : B -> C -> Prop) l l', Forall2 (fun a c => R (f a) c) l l' -> Forall2 R (map f l) l'.
Proof. intros A B C f R l l' H. induction H; cbn; constructor; auto. Qed.
Lemma Forall2_map_r : forall A B C (f : A -> B) (R : C -> B -> Prop) l l', Forall2 (fun c a => R c (f a)) l l' -> Forall2 R l (map f l').
Proof. intros A B C f R l l' H. induction H; cbn; constructor; auto. Qed.

Section Order.
  Context {F : FloatOps}.

  (** Positions of the nodes of a zone. *)
  Definition pz (h : heap) (z : nat) : list pt := map (n_p h) (z_nodes h z).
  Definition pall (h : heap) : list pt := flat_map (pz h) (g_zones h).

  (** The nodes of a zone are listed in the order of their first occurrence in the zones. *)
  Definition zone_order (h : heap) : Prop := forall z, In z (g_zones h) ->
    sublist_of (fun p => In p (pz h z)) (firsts (pall h)) (pz h z).

  Lemma pos_rnd : forall h l, nodes_merged h -> incl l (g_nodes h) -> map rnd (map (n_p h) l) = map (n_rc h) l.
  Proof. intros h l (_ & _ & H) I. rewrite map_map. apply map_ext_in. intros n Hn. symmetry. auto. Qed.

  Lemma zone_incl : forall h z, zone_lists_ok h -> In z (g_zones h) -> incl (z_nodes h z) (g_nodes h).
  Proof. intros h z Hl Hz n Hn. destruct (Hl z Hz) as [Hs _]. apply (sublist_In _ _ _ _ n Hs) in Hn. tauto. Qed.

  Lemma pos_inj : forall h n m, nodes_merged h -> In n (g_nodes h) -> In m (g_nodes h) -> rnd (n_p h n) = rnd (n_p h m) -> n = m.
  Proof.
    intros h n m (N & _ & H) Hn Hm E. rewrite <- !H in E by auto. exact (NoDup_map_inj _ _ (n_rc h) (g_nodes h) _ _ N Hn Hm E).
  Qed.

  Lemma pos_nodup : forall h, nodes_merged h -> NoDup (map (n_p h) (g_nodes h)).
  Proof.
    intros h H. apply (NoDup_map_inv rnd). rewrite pos_rnd; [apply H|auto|apply incl_refl].
  Qed.

  (** For positions of nodes, being a position of the zone can be seen after rounding. *)
  Lemma in_rnd : forall h z p, nodes_merged h -> zone_lists_ok h -> In z (g_zones h) -> In p (map (n_p h) (g_nodes h)) ->
    (In p (pz h z) <-> In (rnd p) (map rnd (pz h z))).
  Proof.
    intros h z p Hm Hl Hz Hp. split; [apply in_map|]. intros K. apply in_map_iff in Hp as (n & <- & Hn).
    unfold pz in K. rewrite map_map in K. apply in_map_iff in K as (m & Em & Hmz).
    assert (m = n) by (apply (pos_inj h); auto; eapply zone_incl; eauto). subst m. apply in_map. auto.
  Qed.

  Lemma pall_in : forall h p, zone_lists_ok h -> In p (pall h) -> In p (map (n_p h) (g_nodes h)).
  Proof.
    intros h p Hl Hp. apply in_flat_map in Hp as (z & Hz & Hp). apply in_map_iff in Hp as (n & <- & Hn). apply in_map. eapply zone_incl; eauto.
  Qed.

  (** A grid is stored and read. *)
  Record again (h : heap) (text : str) (h' : heap) : Prop := {
    ag_store : store h = Ok text;
    ag_same : same_contents (grid_vars h) h h';
    ag_ok : grid_ok h'; ag_lists : zone_lists_ok h'; ag_merged : nodes_merged h'; ag_num : numbered h';
    ag_pts : map (n_p h') (g_nodes h') = firsts (pall h)
  }.

  Definition good (h : heap) : Prop := grid_ok h /\ zone_lists_ok h /\ numbered h /\ nodes_merged h /\ writable h.

  Lemma again_ok : forall h h0, faithful_numbers -> good h ->
    exists text h', load true text h0 = (Ok tt, h') /\ again h text h'.
  Proof.
    intros h h0 Hn (Hok & Hl & Hnb & Hm & Hw).
    destruct (round_trip h h0 Hn Hok Hl Hnb Hm Hw) as (text & h' & Es & El & Sc & Ok' & Hl' & Hm' & Hno).
    exists text, h'. split; [exact El|]. constructor; auto using numbered_of.
    destruct (store_form h Hn Hok Hl Hnb Hw) as (text' & zrs & Es' & Hd & Hf).
    assert (text' = text) by congruence. subst text'.
    destruct (load_result _ _ _ _ _ El Hf) as [L _]. rewrite zones_of_map in L. rewrite (ld_pts _ _ _ L). f_equal.
    unfold all_pts, pall. clear - Hd. induction Hd as [|z zr zs zrs Hz Hd IH]; [reflexivity|]. cbn [flat_map]. rewrite IH. f_equal. apply Hz.
  Qed.

  Lemma again_zone : forall h text h', again h text h' -> Forall2 (fun z z' => sublist_of (fun p => In p (pz h z)) (firsts (pall h)) (pz h' z')) (g_zones h) (g_zones h').
  Proof.
    intros h text h' A. destruct A. destruct ag_same0 as (_ & Lz & _ & _ & Hz).
    apply Forall2_of_nth; [auto|]. intros i z z' Ez Ez'. destruct (Hz i z z' Ez Ez') as (_ & Hp & _).
    destruct (ag_lists0 z') as [Hs _]; [eapply nth_error_In; eauto|].
    pose proof (sublist_image _ _ (n_p h') _ _ _ Hs (pos_nodup h' ag_merged0)) as K. rewrite ag_pts0 in K.
    eapply sublist_ext; [exact K|]. intros p _. apply Hp.
  Qed.

  Lemma again_vars : forall h text h', good h -> again h text h' -> g_faces h' <> [] /\ grid_vars h' = grid_vars h.
  Proof.
    intros h text h' (Hok & _ & _ & _ & Hw) A. destruct A. destruct ag_same0 as (_ & Lz & Lf & _ & Hz).
    assert (Hne : g_faces h' <> []).
    { intros E. rewrite E in Lf. cbn in Lf. destruct Hw as (Hw & _). destruct (g_faces h); [congruence|discriminate]. }
    split; [exact Hne|]. unfold grid_vars at 1. destruct (g_faces h') as [|f' fs'] eqn:Ef; [congruence|].
    destruct ag_ok0 as [Ht Hzo]. destruct (zo_cover h' Hzo f') as (z' & Hz' & Hfz); [rewrite Ef; left; auto|].
    assert (Hin : In f' (z_faces h' z')). { apply (zo_faces h' Hzo z' f' Hz'). split; [rewrite Ef; left; auto|auto]. }
    apply In_nth_error in Hz' as (i & Ez'). apply In_nth_error in Hin as (k & Ek').
    destruct (nth_error (g_zones h) i) as [z|] eqn:Ez; [|exfalso; apply nth_error_None in Ez; assert (i < length (g_zones h')) by (apply nth_error_Some; congruence); lia].
    destruct (Hz i z z' Ez Ez') as (_ & _ & L & Hk).
    destruct (nth_error (z_faces h z) k) as [f|] eqn:Ek; [|exfalso; apply nth_error_None in Ek; assert (k < length (z_faces h' z')) by (apply nth_error_Some; congruence); lia].
    destruct (Hk k f f' Ek Ek') as (_ & K & _). exact K.
  Qed.

  Lemma again_good : forall h text h', good h -> again h text h' -> good h'.
  Proof.
    intros h text h' G A. destruct (again_vars h text h' G A) as [Hne Ev]. destruct A. destruct G as (_ & _ & _ & _ & Hw).
    destruct Hw as (_ & W1 & W2 & W3 & W4). destruct ag_same0 as (En & Lz & _ & _ & Hz).
    split; [auto|]. split; [auto|]. split; [auto|]. split; [auto|].
    split; [auto|]. rewrite En, Ev. split; [auto|]. split; [|auto].
    intros z' Hz'. apply In_nth_error in Hz' as (i & Ez').
    destruct (nth_error (g_zones h) i) as [z|] eqn:Ez; [|exfalso; apply nth_error_None in Ez; assert (i < length (g_zones h')) by (apply nth_error_Some; congruence); lia].
    destruct (Hz i z z' Ez Ez') as (Nm & _). rewrite Nm. apply W2. eapply nth_error_In; eauto.
  Qed.

  (** With the nodes in order, the next stored file is the same. *)
  Lemma again_same : forall h text h', good h -> zone_order h -> again h text h' -> store h' = Ok text.
  Proof.
    intros h text h' G Ho A. destruct (again_vars h text h' G A) as [Hne Ev]. pose proof (again_zone h text h' A) as Hz2.
    destruct G as (Hok & Hl & Hnb & Hm & Hw). destruct A. rewrite <- ag_store0.
    destruct ag_same0 as (En & Lz & _ & _ & Hz).
    apply store_same; auto; [apply Hw|].
    apply Forall2_of_nth; [auto|]. intros i z z' Ez Ez'.
    destruct (Hz i z z' Ez Ez') as (Nm & _ & L & Hk). split; [auto|]. split.
    - pose proof (Forall2_nth_error _ _ _ _ _ _ _ _ Hz2 Ez Ez') as K. cbn beta in K.
      apply (sublist_unique _ _ _ _ _ K). apply Ho. eapply nth_error_In; eauto.
    - apply Forall2_of_nth; [auto|]. intros k f f' Ek Ek'. destruct (Hk k f f' Ek Ek') as (Ep & _ & Hv).
      split; [auto|]. intros v Hin. unfold var_value at 1. rewrite (Hv v Hin). reflexivity.
  Qed.

  (** The nodes read from a stored file are in order. *)
  Lemma again_order : forall h text h', good h -> again h text h' -> zone_order h'.
  Proof.
    intros h text h' G A. pose proof (again_zone h text h' A) as Hz2.
    destruct G as (Hok & Hl & Hnb & Hm & Hw).
    assert (E : firsts (pall h') = firsts (pall h)).
    { unfold pall. rewrite !flat_map_concat_map. unfold firsts. apply (firsts_reordered _ _ [] []); [intros p []|].
      apply Forall2_map_l, Forall2_map_r. cbn [app]. change (firsts_from [] (concat (map (pz h) (g_zones h)))) with (firsts (concat (map (pz h) (g_zones h)))).
      rewrite <- flat_map_concat_map. fold (pall h).
      assert (K : forall zs zs', incl zs (g_zones h) -> Forall2 (fun z z' => sublist_of (fun p => In p (pz h z)) (firsts (pall h)) (pz h' z')) zs zs' ->
        Forall2 (fun z z' => sublist_of (fun p => In (rnd p) (map rnd (pz h z))) (firsts (pall h)) (pz h' z')) zs zs').
      { intros zs zs' Hi H. induction H as [|z z' zs zs' Hz H IH]; constructor.
        - eapply sublist_ext; [exact Hz|]. intros p Hp. apply in_rnd; auto; [apply Hi; left; auto|].
          apply pall_in; auto. unfold firsts in Hp. apply firsts_from_in in Hp. tauto.
        - apply IH. intros x Hx. apply Hi. right. auto. }
      apply K; [apply incl_refl|exact Hz2]. }
    destruct A. destruct ag_same0 as (_ & Lz & _ & _ & Hz).
    intros z' Hz'. rewrite E. apply In_nth_error in Hz' as (i & Ez').
    destruct (nth_error (g_zones h) i) as [z|] eqn:Ez; [|exfalso; apply nth_error_None in Ez; assert (i < length (g_zones h')) by (apply nth_error_Some; congruence); lia].
    pose proof (Forall2_nth_error _ _ _ _ _ _ _ _ Hz2 Ez Ez') as K. cbn beta in K.
    destruct (Hz i z z' Ez Ez') as (_ & Hp & _).
    eapply sublist_ext; [exact K|]. intros p _. symmetry. apply Hp.
  Qed.

  (** From the second stored file on nothing changes. *)
  Theorem second_store : forall h h0 h1, faithful_numbers -> grid_ok h -> zone_lists_ok h -> numbered h -> nodes_merged h -> writable h ->
    exists t1 g1 t2 g2, store h = Ok t1 /\ load true t1 h0 = (Ok tt, g1) /\ store g1 = Ok t2 /\
      load true t2 h1 = (Ok tt, g2) /\ store g2 = Ok t2.
  Proof.
    intros h h0 h1 Hn A1 A2 A3 A4 A5. assert (G : good h) by (unfold good; auto).
    destruct (again_ok h h0 Hn G) as (t1 & g1 & L1 & B1). pose proof (again_good _ _ _ G B1) as G1.
    destruct (again_ok g1 h1 Hn G1) as (t2 & g2 & L2 & B2).
    exists t1, g1, t2, g2. split; [apply B1|]. split; [auto|]. split; [apply B2|]. split; [auto|].
    apply (again_same g1); auto. apply (again_order h t1); auto.
  Qed.

  (** ** Files in which every node is a corner of a face of its zone *)

  Lemma used_order : forall text h0 h evs, load true text h0 = (Ok tt, h) -> file_form [] (file_lines text) evs -> no_degenerate (zones_of evs) ->
    all_used (zones_of evs) -> zone_order h.
  Proof.
    intros text h0 h evs El Hf Nd Hu.
    pose proof (load_incidence true text h0 h _ El Hf (or_introl eq_refl) Nd) as Ht.
    destruct (load_result _ _ _ _ _ El Hf) as [L _]. destruct L. specialize (ld_merge eq_refl).
    assert (Hm : nodes_merged h) by (split; [auto|split; auto]).
    set (zrs := zones_of evs) in *. destruct ld_zones as (Lz & Lf & Hz).
    (* the rounded positions of a zone are those of the file *)
    assert (R : forall i z zr, nth_error (g_zones h) i = Some z -> nth_error zrs i = Some zr ->
      forall r, In r (map rnd (pz h z)) <-> In r (map rnd (zr_pts zr))).
    { intros i z zr Ez Er r. destruct (Hz i z zr Ez Er) as (_ & Ln & Hk).
      assert (Hzin : In z (g_zones h)) by (eapply nth_error_In; eauto).
      unfold pz. rewrite (pos_rnd h) by (auto; eapply zone_incl; eauto). split.
      - intros K. apply in_map_iff in K as (n & <- & K). destruct (ld_lists z Hzin) as [Hs _].
        apply (sublist_In _ _ _ _ n Hs) in K as (Hg & f & Hfn & Hfz).
        assert (Hfg : In f (g_faces h)) by (apply (t_node_faces h Ht n Hg); auto).
        assert (Hfz' : In f (z_faces h z)) by (apply (zo_faces h ld_zok z f Hzin); auto).
        assert (Hnf : In n (f_nodes h f)) by (apply (t_nf h Ht n f Hg Hfg); auto).
        apply In_nth_error in Hfz' as (k & Ek). destruct (Hk k f Ek) as (_ & row & t & _ & _ & _ & Hc).
        destruct (Forall2_in_r _ _ _ _ _ _ Hc Hnf) as (o & Ho & p & -> & ->). apply in_map.
        destruct t as [[a b] c]. cbn in Ho. destruct Ho as [Ho|[Ho|[Ho|[]]]]; eapply nth_error_In; eauto.
      - intros K. apply in_map_iff in K as (p & <- & K). apply In_nth_error in K as (j & Ej).
        destruct (Hu zr (nth_error_In _ _ Er) j) as (t & Ht1 & Ht2); [apply nth_error_Some; congruence|].
        apply In_nth_error in Ht1 as (k & Ekt).
        destruct (nth_error (z_faces h z) k) as [f|] eqn:Ek; [|exfalso; apply nth_error_None in Ek; assert (k < length (zr_conn zr)) by (apply nth_error_Some; congruence); lia].
        destruct (Hk k f Ek) as (_ & row & t' & _ & Et' & _ & Hc). assert (t' = t) by congruence. subst t'.
        assert (Ho : In (Some p) (corners zr t)).
        { destruct t as [[a b] c]. cbn in Ht2 |- *. destruct Ht2 as [<-|[<-|<-]]; auto. }
        assert (exists n, In n (f_nodes h f) /\ n_rc h n = rnd p) as (n & Hn & <-).
        { clear - Hc Ho. induction Hc as [|o n os ns (q & -> & E) Hc IH]; [destruct Ho|]. destruct Ho as [Ho|Ho].
          - injection Ho as ->. exists n. simpl. auto.
          - destruct (IH Ho) as (m & A & B). exists m. simpl. auto. }
        assert (Hff : In f (z_faces h z)) by (eapply nth_error_In; eauto).
        apply in_map. apply (zone_face_incl h z f (conj Ht ld_zok) ld_lists Hzin Hff). auto. }
    assert (S2 : forall i z zr, nth_error (g_zones h) i = Some z -> nth_error zrs i = Some zr ->
      sublist_of (fun p => In p (pz h z)) (firsts (all_pts zrs)) (pz h z)).
    { intros i z zr Ez Er. destruct (ld_lists z) as [Hs _]; [eapply nth_error_In; eauto|].
      pose proof (sublist_image _ _ (n_p h) _ _ _ Hs (pos_nodup h Hm)) as K. rewrite ld_pts in K. exact K. }
    assert (E : firsts (pall h) = firsts (all_pts zrs)).
    { unfold pall, all_pts. rewrite !flat_map_concat_map. unfold firsts. apply (firsts_reordered _ _ [] []); [intros p []|].
      cbn [app]. change (firsts_from [] (concat (map zr_pts zrs))) with (firsts (concat (map zr_pts zrs))).
      rewrite <- flat_map_concat_map. fold (all_pts zrs).
      apply Forall2_map_l, Forall2_map_r. apply Forall2_of_nth; [auto|]. intros i zr z Er Ez.
      eapply sublist_ext; [exact (S2 i z zr Ez Er)|]. intros p Hp. rewrite <- (R i z zr Ez Er).
      apply in_rnd; auto; [eapply nth_error_In; eauto|]. rewrite ld_pts. exact Hp. }
    intros z Hzin. rewrite E. apply In_nth_error in Hzin as (i & Ez).
    destruct (nth_error zrs i) as [zr|] eqn:Er; [|exfalso; apply nth_error_None in Er; assert (i < length (g_zones h)) by (apply nth_error_Some; congruence); lia].
    exact (S2 i z zr Ez Er).
  Qed.

  (** A file in which all nodes are used: the first stored file and the second one are the same. *)
  Theorem used_store : forall text h0 h1 h evs, faithful_numbers -> load true text h0 = (Ok tt, h) -> file_form [] (file_lines text) evs ->
    no_degenerate (zones_of evs) -> all_used (zones_of evs) -> title_in evs <> None -> (exists zr, In zr (zones_of evs) /\ zr_conn zr <> []) ->
    exists t1 g1, store h = Ok t1 /\ load true t1 h1 = (Ok tt, g1) /\ store g1 = Ok t1.
  Proof.
    intros text h0 h1 h evs Hn El Hf Nd Hu Ti Hc.
    assert (Hp : plain_name (g_name h)) by (apply (loaded_names _ _ _ _ _ El Hf); auto).
    assert (Hne : g_faces h <> []).
    { destruct (load_result _ _ _ _ _ El Hf) as [L _]. destruct (ld_zones _ _ _ L) as (Lz & Lf & Hz). destruct Hc as (zr & Hzr & Hc).
      apply In_nth_error in Hzr as (i & Er).
      destruct (nth_error (g_zones h) i) as [z|] eqn:Ez; [|exfalso; apply nth_error_None in Ez; assert (i < length (zones_of evs)) by (apply nth_error_Some; congruence); lia].
      destruct (Hz i z zr Ez Er) as (_ & Ln & _). intros E. rewrite E in Lf.
      assert (K : forall zs, [] = flat_map (z_faces h) zs -> In z zs -> z_faces h z = []).
      { induction zs as [|y zs IH]; intros E1 Hi; [destruct Hi|]. cbn [flat_map] in E1. symmetry in E1. apply app_eq_nil in E1 as [E1 E2].
        destruct Hi as [->|Hi]; auto. }
      rewrite (K _ Lf (nth_error_In _ _ Ez)) in Ln. destruct (zr_conn zr); [congruence|discriminate]. }
    pose proof (used_order text h0 h evs El Hf Nd Hu) as Ho.
    assert (G : good h).
    { pose proof (load_incidence true text h0 h _ El Hf (or_introl eq_refl) Nd) as Ht.
      pose proof (loaded_writable _ _ _ _ El Hf Hne Hp) as W.
      destruct (load_result _ _ _ _ _ El Hf) as [L _]. destruct L. specialize (ld_merge eq_refl).
      split; [split; auto|]. split; [auto|]. split; [apply numbered_of; auto|]. split; [split; [auto|split; auto]|auto]. }
    destruct (again_ok h h1 Hn G) as (t1 & g1 & L1 & B1). exists t1, g1. split; [apply B1|]. split; [auto|].
    apply (again_same h); auto.
  Qed.
End Order.
