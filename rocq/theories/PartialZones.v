(** Partially filled decompositions: fixed zones kept, other faces not yet
    assigned.  Used by the Farhat and hierarchical decompositions. *)

From Coq Require Import ZArith NArith Ascii String Bool Lia List Permutation.
From Verif Require Import Py PyLemmas Heap HeapLemmas GridModel GridSpec DecompProofs AssignProofs
  SimpleDecomp.
Import ListNotations.
Open Scope list_scope.

Section Partial.
  Context {F : FloatOps}.

  (** As [zones_ok], but faces may have no zone. *)
  Record pzones (h : heap) : Prop := {
    pz_nd : NoDup (g_zones h);
    pz_alloc : forall z, In z (g_zones h) -> z < next_z h;
    pz_faces_nd : forall z, In z (g_zones h) -> NoDup (z_faces h z);
    pz_faces : forall z f, In z (g_zones h) ->
      (In f (z_faces h z) <-> In f (g_faces h) /\ f_zone h f = Some z);
    pz_some : forall f z, In f (g_faces h) -> f_zone h f = Some z -> In z (g_zones h)
  }.

  Definition free (h : heap) : list nat := filter (zone_is_none h) (g_faces h).

  Lemma free_In : forall h f, In f (free h) <-> In f (g_faces h) /\ f_zone h f = None.
  Proof.
    intros h f. unfold free, zone_is_none. rewrite filter_In.
    destruct (f_zone h f); split; intros [? ?]; split; auto; discriminate.
  Qed.

  Lemma pzones_total : forall h, pzones h -> free h = [] -> zones_ok h.
  Proof.
    intros h [H1 H2 H3 H4 H5] Hf. constructor; auto.
    intros f Hin. destruct (f_zone h f) as [z|] eqn:E.
    - exists z. split; auto. eapply H5; eauto.
    - exfalso. assert (In f (free h)) by (apply free_In; auto). rewrite Hf in H. destruct H.
  Qed.

  Lemma zones_pzones : forall h, zones_ok h -> pzones h.
  Proof.
    intros h [H1 H2 H3 H4 H5]. constructor; auto.
    intros f z Hf Hz. destruct (H5 f Hf) as (z' & Hz' & E). congruence.
  Qed.

  Lemma NoDup_concat : forall (g : nat -> list nat) zs, NoDup zs ->
    (forall z, In z zs -> NoDup (g z)) ->
    (forall z z' f, In z zs -> In z' zs -> In f (g z) -> In f (g z') -> z = z') ->
    NoDup (concat (map g zs)).
  Proof.
    intros g zs. induction zs as [|z zs IH]; intros Hn H1 H2; cbn; [constructor|].
    inv Hn. apply NoDup_app_intro.
    - apply H1. simpl; auto.
    - apply IH; auto.
      + intros z' Hz'. apply H1. simpl; auto.
      + intros a b f Ha Hb. apply H2; simpl; auto.
    - intros f Hf Hc. apply in_concat in Hc as (l & Hl & Hfl). apply in_map_iff in Hl as (z' & <- & Hz').
      assert (z = z') by (eapply H2; simpl; eauto). subst. contradiction.
  Qed.

  Lemma pzones_perm : forall h, NoDup (g_faces h) -> pzones h ->
    Permutation (concat (map (z_faces h) (g_zones h)) ++ free h) (g_faces h).
  Proof.
    intros h Hnd [H1 H2 H3 H4 H5]. apply NoDup_Permutation; auto.
    - apply NoDup_app_intro.
      + apply NoDup_concat; auto. intros z z' f Hz Hz' Hf Hf'.
        apply H4 in Hf; auto. apply H4 in Hf'; auto. destruct Hf, Hf'. congruence.
      + apply NoDup_filter. auto.
      + intros f Hf Hfr. apply free_In in Hfr as [_ Hn].
        apply in_concat in Hf as (l & Hl & Hfl). apply in_map_iff in Hl as (z & <- & Hz).
        apply H4 in Hfl as [_ Hfl]; auto. congruence.
    - intros f. rewrite in_app_iff, free_In. split.
      + intros [Hf|[Hf _]]; auto. apply in_concat in Hf as (l & Hl & Hfl).
        apply in_map_iff in Hl as (z & <- & Hz). apply H4 in Hfl; tauto.
      + intros Hf. destruct (f_zone h f) as [z|] eqn:E; [|auto]. left.
        assert (Hz : In z (g_zones h)) by (eapply H5; eauto).
        apply in_concat. exists (z_faces h z). split; [apply in_map; auto|]. apply H4; auto.
  Qed.

  Lemma concat_length : forall (g : nat -> list nat) zs,
    length (concat (map g zs)) = list_sum (map (fun z => length (g z)) zs).
  Proof.
    intros g zs. induction zs as [|z zs IH]; auto. cbn [map concat]. rewrite app_length, IH. auto.
  Qed.

  (** Frame of [assign] and [bfs_path] together. *)
  Definition frameM (h : heap) :=
    (mesh h, (z_id h, z_name h, z_nodes h, z_edges h, z_fixed h, next_z h), (g_name h, g_zones h)).

  Lemma frameM_fields : forall h h', frameM h' = frameM h ->
    mesh h' = mesh h /\ g_zones h' = g_zones h /\ g_faces h' = g_faces h /\
    next_z h' = next_z h /\ z_fixed h' = z_fixed h /\ z_name h' = z_name h /\ g_name h' = g_name h.
  Proof. intros h h' H. unfold frameM, mesh in *. repeat split; congruence. Qed.

  Lemma frameZ_M : forall h h', frameZ h' = frameZ h -> frameM h' = frameM h.
  Proof. intros h h' H. unfold frameZ, frameM in *. congruence. Qed.

  (** Moving free faces [l] to the zone [z]. *)
  Lemma fill_ok : forall h z l, pzones h -> In z (g_zones h) -> NoDup l -> incl l (free h) ->
    exists h', assign (map (fun f => (z, f)) l) h = (Ok tt, h') /\ frameZ h' = frameZ h /\
      pzones h' /\ z_faces h' z = z_faces h z ++ l /\
      (forall z', z' <> z -> z_faces h' z' = z_faces h z') /\
      (forall f, In f (free h') <-> In f (free h) /\ ~ In f l) /\
      (forall f, In f l -> f_zone h' f = Some z) /\
      (forall f, ~ In f l -> f_zone h' f = f_zone h f).
  Proof.
    intros h z l Hp Hz Hnd Hi.
    assert (Esnd : map snd (map (fun f => (z, f)) l) = l) by (rewrite map_map; cbn; apply map_id).
    destruct (assign_ok (fun x => x = z) (map (fun f => (z, f)) l) h) as (h' & E & Hf & H1 & H2 & H3 & H4).
    - intros z' f H. apply in_map_iff in H as (x & Ex & _). inv Ex. auto.
    - rewrite Esnd. auto.
    - rewrite Esnd. intros f z0 Hf Hz0. apply Hi, free_In in Hf. destruct Hf. congruence.
    - rewrite Esnd in *. pose proof (frameZ_fields _ _ Hf) as (_ & Ez & Ef & En & _ & _ & _ & _).
      specialize (H1 z eq_refl). rewrite faces_for_const_same in H1.
      assert (H2' : forall f, In f l -> f_zone h' f = Some z).
      { intros f Hfl. apply H2. apply in_map_iff. exists f. auto. }
      assert (H4' : forall z', z' <> z -> z_faces h' z' = z_faces h z').
      { intros z' Hz'. apply H4; auto. intros f Hfl. apply Hi, free_In in Hfl. destruct Hfl. congruence. }
      assert (Hfree : forall f, In f l -> In f (g_faces h) /\ f_zone h f = None).
      { intros f Hfl. apply free_In. auto. }
      exists h'. split; [auto|]. split; [auto|]. split.
      { destruct Hp as [P1 P2 P3 P4 P5]. constructor; rewrite ?Ez, ?En, ?Ef; auto.
        - intros z' Hz'. destruct (Nat.eq_dec z' z) as [->|Hne].
          + rewrite H1. apply NoDup_app_intro; auto. intros f Hf1 Hf2. apply P4 in Hf1; auto.
            destruct (Hfree f Hf2). destruct Hf1. congruence.
          + rewrite H4'; auto.
        - intros z' f Hz'. destruct (in_dec Nat.eq_dec f l) as [Hfl|Hfl].
          + rewrite (H2' f Hfl). destruct (Hfree f Hfl) as [Hg Hn]. split.
            * intros Hin. split; auto. destruct (Nat.eq_dec z' z) as [->|Hne]; auto.
              rewrite H4' in Hin by auto. apply P4 in Hin; auto. destruct Hin. congruence.
            * intros [_ Ez']. inv Ez'. rewrite H1. apply in_or_app; auto.
          + rewrite (H3 f Hfl). destruct (Nat.eq_dec z' z) as [->|Hne].
            * rewrite H1, in_app_iff, (P4 z f Hz). tauto.
            * rewrite H4' by auto. auto.
        - intros f z' Hg Hz'. destruct (in_dec Nat.eq_dec f l) as [Hfl|Hfl].
          + rewrite (H2' f Hfl) in Hz'. inv Hz'. auto.
          + rewrite (H3 f Hfl) in Hz'. eauto. }
      split; [auto|]. split; [auto|]. split; [|split; auto].
      intros f. rewrite !free_In, Ef. destruct (in_dec Nat.eq_dec f l) as [Hfl|Hfl].
      + rewrite (H2' f Hfl). split; [intros [_ ?]; discriminate|tauto].
      + rewrite (H3 f Hfl). tauto.
  Qed.

  (** Zones of [h] whose name is in [names]. *)
  Definition kept (h : heap) (names : list str) : list nat :=
    filter (fun z => mem (str_eqb (z_name h z)) names) (g_zones h).

  Lemma mark_fixed_ok : forall names h, exists v,
    mark_fixed names h = (Ok tt, set_z_fixed h v) /\
    (forall z, In z (g_zones h) -> v z = mem (str_eqb (z_name h z)) names) /\
    (forall z, ~ In z (g_zones h) -> v z = z_fixed h z).
  Proof.
    intros names h. unfold mark_fixed. rewrite bind_gets.
    assert (G : forall zs v, exists v',
      for_each zs (fun z => modify (fun h => set_z_fixed h
        (upd (z_fixed h) z (mem (str_eqb (z_name h z)) names)))) (set_z_fixed h v)
      = (Ok tt, set_z_fixed h v') /\
      (forall z, In z zs -> v' z = mem (str_eqb (z_name h z)) names) /\
      (forall z, ~ In z zs -> v' z = v z)).
    { induction zs as [|z zs IH]; intros v.
      - exists v. split; [reflexivity|]. split; [intros z []|auto].
      - cbn [for_each]. rewrite bind_modify. cbn [z_fixed z_name].
        destruct (IH (upd v z (mem (str_eqb (z_name h z)) names))) as (v' & E & H1 & H2).
        exists v'. split; [exact E|]. split.
        + intros z' [<-|Hz']; auto. destruct (in_dec Nat.eq_dec z zs); auto.
          rewrite H2 by auto. apply upd_same.
        + intros z' Hz'. rewrite H2 by (intro; apply Hz'; simpl; auto).
          apply upd_other. intro; subst. apply Hz'; simpl; auto. }
    destruct (G (g_zones h) (z_fixed h)) as (v & E & H1 & H2).
    assert (Eh : set_z_fixed h (z_fixed h) = h) by (destruct h; reflexivity). rewrite Eh in E.
    exists v. auto.
  Qed.

  Lemma filter_ext_in' : forall A (p q : A -> bool) l, (forall x, In x l -> p x = q x) ->
    filter p l = filter q l.
  Proof. intros. apply filter_ext_in. auto. Qed.

  (** Common beginning of the Farhat and hierarchical decompositions. *)
  Lemma fixed_prologue : forall names nm h, grid_ok h ->
    exists h1 h2 h4, mark_fixed names h = (Ok tt, h1) /\ rename nm h1 = (Ok tt, h2) /\
      unlink_faces_from_zones (set_g_zones h2 (filter (z_fixed h2) (g_zones h2))) = (Ok tt, h4) /\
      mesh h4 = mesh h /\ g_name h4 = match nm with Some s => s | None => g_name h end /\
      g_zones h4 = kept h names /\ z_faces h4 = z_faces h /\ z_name h4 = z_name h /\
      next_z h4 = next_z h /\ pzones h4 /\
      g_zones (set_g_zones h2 (filter (z_fixed h2) (g_zones h2))) = kept h names /\
      (forall z, In z (kept h names) -> z_fixed h4 z = true).
  Proof.
    intros names nm h [Ht Hz]. destruct (mark_fixed_ok names h) as (v & E1 & V1 & V2).
    set (h1 := set_z_fixed h v) in *.
    assert (G1 : grid_ok h1).
    { split; [eapply topo_mesh; [|eauto]; reflexivity|]. destruct Hz; constructor; auto. }
    destruct (rename_ok nm h1 G1) as (h2 & E2 & G2 & M2 & N2 & Z2 & Zn2 & Zf2 & Zx2 & Fz2 & Nm2).
    set (h3 := set_g_zones h2 (filter (z_fixed h2) (g_zones h2))).
    assert (Ek : g_zones h3 = kept h names).
    { unfold h3, kept. cbn [g_zones set_g_zones]. rewrite Z2, Zx2. apply filter_ext_in'.
      intros z Hin. apply V1. auto. }
    assert (Ecov : forall f, In f (g_faces h3) -> exists z, In z (g_zones h) /\ f_zone h3 f = Some z).
    { intros f Hf. destruct G2 as [_ Hz2]. destruct (zo_cover h2 Hz2 f Hf) as (z & Hzi & Ef).
      exists z. split; [rewrite Z2 in Hzi; exact Hzi|exact Ef]. }
    destruct (unlink_ok h3) as (h4 & E4 & F4 & U1 & U2).
    { apply (t_faces_nd h2). apply G2. }
    { intros f Hf. destruct (Ecov f Hf) as (z & _ & Ef). congruence. }
    assert (Ez4 : g_zones h4 = g_zones h3) by (unfold frameU in F4; congruence).
    assert (Em4 : mesh h4 = mesh h3) by (unfold frameU in F4; congruence).
    assert (Ezf4 : z_faces h4 = z_faces h3) by (unfold frameU in F4; congruence).
    assert (Ezx4 : z_fixed h4 = z_fixed h3) by (unfold frameU in F4; congruence).
    assert (Enz4 : next_z h4 = next_z h3) by (unfold frameU in F4; congruence).
    assert (Enm4 : z_name h4 = z_name h3) by (unfold frameU in F4; congruence).
    assert (Egn4 : g_name h4 = g_name h3) by (unfold frameU in F4; congruence).
    assert (Egf4 : g_faces h4 = g_faces h3) by (unfold mesh in Em4; congruence).
    assert (Hfix : forall z, In z (kept h names) -> z_fixed h3 z = true).
    { intros z Hin. change (z_fixed h3) with (z_fixed h2). rewrite Zx2. cbn [z_fixed h1 set_z_fixed].
      apply filter_In in Hin as [Hi Hm]. rewrite V1; auto. }
    assert (Hfix' : forall z, In z (g_zones h) -> z_fixed h3 z = true -> In z (kept h names)).
    { intros z Hi Hx. change (z_fixed h3) with (z_fixed h2) in Hx. rewrite Zx2 in Hx.
      cbn [z_fixed h1 set_z_fixed] in Hx. apply filter_In. split; auto. rewrite <- V1; auto. }
    exists h1, h2, h4. split; [auto|]. split; [auto|]. split; [auto|].
    split; [rewrite Em4; change (mesh h3) with (mesh h2); rewrite M2; reflexivity|].
    split; [rewrite Egn4; change (g_name h3) with (g_name h2); rewrite Nm2; reflexivity|].
    split; [congruence|].
    split; [rewrite Ezf4; change (z_faces h3) with (z_faces h2); rewrite Zf2; reflexivity|].
    split; [rewrite Enm4; change (z_name h3) with (z_name h2); rewrite Zn2; reflexivity|].
    split; [rewrite Enz4; change (next_z h3) with (next_z h2); rewrite N2; reflexivity|].
    split.
    { destruct G2 as [Ht2 [O1 O2 O3 O4 O5]].
      assert (Hin : forall z, In z (kept h names) -> In z (g_zones h2)).
      { intros z Hin. rewrite Z2. apply filter_In in Hin. tauto. }
      constructor; rewrite ?Ez4, ?Ek, ?Enz4, ?Egf4, ?Ezf4.
      - apply NoDup_filter. rewrite Z2 in O1. exact O1.
      - intros z Hk. apply O2. auto.
      - intros z Hk. apply O3. auto.
      - intros z f Hk. change (z_faces h3) with (z_faces h2). rewrite (O4 z f (Hin z Hk)).
        change (g_faces h3) with (g_faces h2). split.
        + intros [Hf Hfz]. split; auto. rewrite (U2 f z Hf Hfz), Hfix; auto.
        + intros [Hf Hfz]. split; auto.
          destruct (Ecov f Hf) as (z0 & Hz0 & Ez0). rewrite (U2 f z0 Hf Ez0) in Hfz.
          destruct (z_fixed h3 z0); [|discriminate]. inv Hfz. exact Ez0.
      - intros f z Hf Hfz. destruct (Ecov f Hf) as (z0 & Hz0 & Ez0). rewrite (U2 f z0 Hf Ez0) in Hfz.
        destruct (z_fixed h3 z0) eqn:Ex; [|discriminate]. inv Hfz. auto. }
    split; [exact Ek|]. intros z Hk. rewrite Ezx4. auto.
  Qed.

  (** Fresh zones keep a partial decomposition valid. *)
  Lemma pzones_extend : forall h h' zs, pzones h -> mesh h' = mesh h -> f_zone h' = f_zone h ->
    g_zones h' = g_zones h ++ zs -> NoDup zs -> (forall z, In z zs -> next_z h <= z < next_z h') ->
    next_z h <= next_z h' ->
    (forall z, In z zs -> z_faces h' z = []) ->
    (forall z, z < next_z h -> z_faces h' z = z_faces h z) -> pzones h'.
  Proof.
    intros h h' zs [P1 P2 P3 P4 P5] Em Ef Ez Hnd Hfr Hn Hemp Hold.
    assert (Egf : g_faces h' = g_faces h) by (unfold mesh in Em; congruence).
    constructor; rewrite ?Ez, ?Egf, ?Ef.
    - apply NoDup_app_intro; auto. intros z H1 H2. apply P2 in H1. apply Hfr in H2. lia.
    - intros z Hz. apply in_app_or in Hz as [Hz|Hz]; [apply P2 in Hz; lia|apply Hfr in Hz; lia].
    - intros z Hz. apply in_app_or in Hz as [Hz|Hz].
      + rewrite Hold; auto.
      + rewrite Hemp by auto. constructor.
    - intros z f Hz. apply in_app_or in Hz as [Hz|Hz].
      + rewrite Hold by auto. auto.
      + rewrite Hemp by auto. split; [intros []|]. intros [Hf Hfz].
        apply P5 in Hfz; auto. apply P2 in Hfz. apply Hfr in Hz. lia.
    - intros f z Hf Hfz. apply in_or_app. left. eauto.
  Qed.
End Partial.
