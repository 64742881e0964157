(** Farhat decomposition. *)

From Coq Require Import ZArith NArith Ascii String Bool Lia List Permutation.
From Verif Require Import Py PyLemmas Heap HeapLemmas GridModel GridSpec DecompProofs AssignProofs
  SimpleDecomp BfsProofs PartialZones.
Import ListNotations.
Open Scope list_scope.

Section Farhat.
  Context {F : FloatOps}.

  Lemma adjacent_mesh : forall h h' f g, mesh h' = mesh h -> adjacent h' f g -> adjacent h f g.
  Proof.
    intros h h' f g Em (Hn & e & H1 & H2 & H3). apply mesh_fields in Em. decompose [and] Em.
    split; auto. exists e. split; [congruence|]. split; congruence.
  Qed.

  Lemma reach_mesh : forall h h' P f g, mesh h' = mesh h -> reach h' P f g -> reach h P f g.
  Proof.
    intros h h' P f g Em H. induction H; [constructor; auto|].
    eapply reach_step; eauto. eapply adjacent_mesh; eauto.
  Qed.

  Lemma connected_same : forall h h' l l', mesh h' = mesh h -> (forall f, In f l <-> In f l') ->
    connected h l -> connected h' l'.
  Proof.
    intros h h' l l' Em Hl Hc f g Hf Hg. apply Hl in Hf. apply Hl in Hg.
    eapply reach_mesh; [symmetry; exact Em|].
    eapply reach_weaken; [|apply (Hc f g Hf Hg)]. intros x. apply Hl.
  Qed.

  Lemma seq_path : forall z path k h, k <= length path ->
    for_each (seq 0 k) (fun fi => f <- lift (py_get path (Z.of_nat fi)) ;; zone_add_face z f) h
    = assign (map (fun f => (z, f)) (firstn k path)) h.
  Proof.
    intros z path k h Hk.
    assert (G : forall k i h, i + k <= length path ->
      for_each (seq i k) (fun fi => f <- lift (py_get path (Z.of_nat fi)) ;; zone_add_face z f) h
      = assign (map (fun f => (z, f)) (firstn k (skipn i path))) h).
    { clear. induction k as [|k IH]; intros i h Hl; [reflexivity|].
      cbn [seq for_each].
      assert (exists f, nth_error path i = Some f) as (f & Ef).
      { destruct (nth_error path i) eqn:E; eauto. apply nth_error_None in E. lia. }
      assert (Esk : skipn i path = f :: skipn (S i) path).
      { clear -Ef. revert i Ef. induction path as [|a fs IH]; intros [|cur] H; simpl in *; try discriminate.
        - inv H. auto.
        - apply IH. auto. }
      rewrite Esk. cbn [firstn map]. unfold assign. cbn [for_each fst snd].
      rewrite bind_assoc, (py_get_nat _ _ _ _ Ef), bind_lift_ok.
      destruct (zone_add_face z f h) as [[[]|e] h1] eqn:E.
      2:{ rewrite !(bind_raise _ _ _ _ _ _ _ E). auto. }
      rewrite !(bind_run _ _ _ _ _ _ _ E). apply IH. lia. }
    rewrite G by lia. reflexivity.
  Qed.

  Lemma free_mark : forall h m, free (set_f_mark h m) = free h.
  Proof. reflexivity. Qed.

  Lemma pzones_mark : forall h m, pzones h -> pzones (set_f_mark h m).
  Proof. intros h m [H1 H2 H3 H4 H5]. constructor; auto. Qed.

  Definition fsize (U count i : nat) : nat := U / count + (if i <? U mod count then 1 else 0).

  Lemma fsize_Z : forall U count i, count <> 0 ->
    (Z.of_nat U / Z.of_nat count + (if Z.of_nat i <? Z.of_nat U mod Z.of_nat count then 1 else 0))%Z
    = Z.of_nat (fsize U count i).
  Proof.
    intros U count i Hc. unfold fsize. rewrite Nat2Z.inj_add, Nat2Z.inj_div.
    rewrite <- Nat2Z.inj_mod. f_equal.
    destruct (Nat.ltb_spec i (U mod count)), (Z.ltb_spec (Z.of_nat i) (Z.of_nat (U mod count))); auto; lia.
  Qed.

  Fixpoint fsum (U count i n : nat) : nat :=
    match n with O => 0 | S n' => fsize U count i + fsum U count (S i) n' end.

  Lemma fsum_all : forall U count, count <> 0 -> fsum U count 0 count = U.
  Proof.
    intros U count Hc.
    assert (G : forall n i, fsum U count i n = linear_total (U / count) (U mod count) i (repeat 0 n)).
    { induction n as [|n IH]; intros i; auto. cbn [fsum repeat linear_total]. rewrite IH.
      unfold fsize. destruct (i <? U mod count); lia. }
    rewrite G, linear_total_val, repeat_length.
    pose proof (Nat.div_mod U count Hc). pose proof (Nat.mod_upper_bound U count Hc).
    rewrite Nat.min_0_r, Nat.min_l by lia. nia.
  Qed.

  Lemma In_concat_map : forall A (g : A -> list nat) zs f,
    In f (concat (map g zs)) <-> exists z, In z zs /\ In f (g z).
  Proof.
    intros A g zs f. rewrite in_concat. split.
    - intros (l & Hl & Hf). apply in_map_iff in Hl as (z & <- & Hz). eauto.
    - intros (z & Hz & Hf). exists (g z). split; auto. apply in_map. auto.
  Qed.

  Lemma farhat_zones_ok : forall U count fzc, count <> 0 ->
    forall T i start h, topo_ok h -> pzones h -> In start (g_faces h) ->
    (forall k z, nth_error T k = Some z -> nth_error (g_zones h) (i + k + fzc) = Some z) ->
    NoDup T ->
    (forall z, In z T -> z_faces h z = []) ->
    length (free h) = fsum U count i (length T) ->
    exists h', farhat_zones (Z.of_nat U) count fzc i start (length T) h = (Ok tt, h') /\
      frameM h' = frameM h /\ pzones h' /\ free h' = [] /\
      (forall z, ~ In z T -> z_faces h' z = z_faces h z) /\
      (forall f, In f (concat (map (z_faces h') T)) <-> In f (free h)) /\
      (forall k z, nth_error T k = Some z -> length (z_faces h' z) = fsize U count (i + k) /\
         (connected h (concat (map (z_faces h') (skipn k T))) -> connected h (z_faces h' z))).
  Proof.
    intros U count fzc Hc T. induction T as [|z T IH]; intros i start h Ht Hp Hs Hnth Hnd Hemp Hlen.
    - exists h. cbn [length farhat_zones]. split; [reflexivity|]. split; [auto|]. split; [auto|].
      cbn in Hlen. split; [destruct (free h); auto; discriminate|]. split; [auto|].
      split; [|intros k z Hk; destruct k; discriminate].
      intros f. cbn. destruct (free h); [tauto|discriminate].
    - cbn [length farhat_zones]. rewrite bind_gets.
      pose proof (Hnth 0 z eq_refl) as Hz0. rewrite Nat.add_0_r in Hz0.
      rewrite (py_get_nat _ _ _ _ Hz0), bind_lift_ok. rewrite fsize_Z by auto.
      set (s := fsize U count i) in *.
      destruct (bfs_path_ok h zone_is_none Ht (fun _ _ => eq_refl) start Hs)
        as (path & m & E1 & Hpn & Hpin & _ & Hpch).
      rewrite (bind_run _ _ _ _ _ _ _ E1). set (h1 := set_f_mark h m) in *.
      assert (Hpfree : forall f, In f path <-> In f (free h)).
      { intros f. rewrite Hpin, free_In. unfold adm, zone_is_none.
        destruct (f_zone h f); split; intros [? ?]; split; auto; discriminate. }
      assert (Hplen : length path = length (free h)).
      { apply Nat.le_antisymm; apply NoDup_incl_length; auto.
        - intros f Hf. apply Hpfree. auto.
        - apply NoDup_filter. apply t_faces_nd. auto.
        - intros f Hf. apply Hpfree. auto. }
      cbn [length fsum] in Hlen. fold s in Hlen.
      assert (Hsl : s <= length path) by lia.
      rewrite Nat2Z.id.
      assert (Hzin : In z (g_zones h)) by (eapply nth_error_In; eauto).
      inv Hnd.
      assert (Hfn : NoDup (firstn s path)).
      { rewrite <- (firstn_skipn s path) in Hpn. apply NoDup_app_inv in Hpn. tauto. }
      destruct (fill_ok h1 z (firstn s path)) as (h2 & E2 & F2 & P2 & Zf2 & Zo2 & Fr2 & Fz2 & Fo2); auto.
      { apply pzones_mark. auto. }
      { intros f Hf. change (free h1) with (free h). apply Hpfree.
        rewrite <- (firstn_skipn s path). apply in_or_app. auto. }
      change (z_faces h1) with (z_faces h) in *. change (free h1) with (free h) in Fr2.
      change (f_zone h1) with (f_zone h) in *.
      rewrite (Hemp z) in Zf2 by (simpl; auto). cbn [app] in Zf2.
      rewrite <- seq_path in E2 by auto. rewrite (bind_run _ _ _ _ _ _ _ E2).
      assert (FM2 : frameM h2 = frameM h).
      { apply frameZ_M in F2. rewrite F2. reflexivity. }
      pose proof (frameM_fields _ _ FM2) as (M2 & Gz2 & Gf2 & _).
      assert (Hfree2 : forall f, In f (free h2) <-> In f (skipn s path)).
      { intros f. rewrite Fr2, <- Hpfree. rewrite <- (firstn_skipn s path) in Hpn.
        apply NoDup_app_inv in Hpn as (_ & _ & Hdj).
        rewrite <- (firstn_skipn s path) at 1. rewrite in_app_iff. split; [tauto|].
        intros Hf. split; auto. intro Hf'. eapply Hdj; eauto. }
      assert (Hs' : exists start', (if (Z.of_nat s <? Z.of_nat (length path))%Z
          then lift (py_get path (Z.of_nat s)) else ret start) h2 = (Ok start', h2) /\
          In start' (g_faces h2)).
      { destruct (Z.ltb_spec (Z.of_nat s) (Z.of_nat (length path))) as [Hlt|Hge].
        - destruct (nth_error path s) as [f|] eqn:Ef; [|apply nth_error_None in Ef; lia].
          exists f. rewrite (py_get_nat _ _ _ _ Ef). split; [reflexivity|].
          rewrite Gf2. apply (Hpin f). eapply nth_error_In; eauto.
        - exists start. split; [reflexivity|]. congruence. }
      destruct Hs' as (start' & Es' & Hs').
      rewrite (bind_run _ _ _ _ _ _ _ Es').
      destruct (IH (S i) start' h2) as (h3 & E3 & FM3 & P3 & Fr3 & Zo3 & Cc3 & K3); auto.
      + eapply topo_mesh; eauto.
      + intros k z' Hk. rewrite Gz2. replace (S i + k + fzc) with (i + S k + fzc) by lia.
        apply Hnth. auto.
      + intros z' Hz'. rewrite Zo2 by (intro; subst; auto). apply Hemp. simpl; auto.
      + assert (Hl : length (free h2) = length (skipn s path)).
        { apply Nat.le_antisymm; apply NoDup_incl_length; auto.
          - apply NoDup_filter. apply t_faces_nd. eapply topo_mesh; eauto.
          - intros f Hf. apply Hfree2. auto.
          - rewrite <- (firstn_skipn s path) in Hpn. apply NoDup_app_inv in Hpn. tauto.
          - intros f Hf. apply Hfree2. auto. }
        rewrite Hl, skipn_length. lia.
      + exists h3. split; [auto|].
        assert (Ez3 : z_faces h3 z = firstn s path) by (rewrite Zo3 by auto; auto).
        split; [congruence|]. split; [auto|]. split; [auto|]. split.
        { intros z' Hz'. rewrite Zo3 by (intro; apply Hz'; simpl; auto).
          apply Zo2. intro; subst. apply Hz'; simpl; auto. }
        assert (Hcc : forall f, In f (concat (map (z_faces h3) (z :: T))) <-> In f (free h)).
        { intros f. cbn [map concat]. rewrite in_app_iff, Cc3, Hfree2, Ez3.
          rewrite <- in_app_iff, firstn_skipn. apply Hpfree. }
        split; [auto|].
        intros [|k] z' Hk.
        * cbn in Hk. inv Hk. rewrite Nat.add_0_r, Ez3. fold s. split.
          { rewrite firstn_length. lia. }
          cbn [skipn]. intros Hcon. apply chain_connected; auto.
          { intros f Hf. apply (Hpin f). rewrite <- (firstn_skipn s path). apply in_or_app; auto. }
          apply chain_firstn. apply Hpch. intros f g Hf Hg.
          assert (Hadm : forall x, In x (concat (map (z_faces h3) (z' :: T))) <-> adm h zone_is_none x).
          { intros x. rewrite Hcc, <- Hpfree. apply Hpin. }
          apply Hadm in Hf. apply Hadm in Hg.
          eapply reach_weaken; [|apply (Hcon f g Hf Hg)]. intros x. apply Hadm.
        * cbn in Hk. destruct (K3 k z' Hk) as [K3a K3b].
          split; [rewrite K3a; f_equal; lia|]. cbn [skipn]. intros Hcon.
          assert (mesh h = mesh h2) by auto.
          eapply connected_same; [|intros; reflexivity|apply K3b]; [auto|].
          eapply connected_same; [|intros; reflexivity|exact Hcon]. auto.
  Qed.

  Lemma farhat_ok : forall count nm names h, grid_ok h -> count <> 0 -> g_faces h <> [] ->
    exists h' T, decompose_farhat count nm names h = (Ok tt, h') /\ decomposed h h' nm /\
      g_zones h' = kept h names ++ T /\ length T = count /\
      (forall z, In z (kept h names) -> z_faces h' z = z_faces h z /\ z_name h' z = z_name h z) /\
      (forall i z, nth_error T i = Some z ->
         z_name h' z = lit "farhat " ++ nat_str i /\
         length (z_faces h' z) =
           fsize (length (g_faces h) - list_sum (map (fun z => length (z_faces h z)) (kept h names)))
                 count i /\
         (connected h (concat (map (z_faces h') (skipn i T))) -> connected h (z_faces h' z))).
  Proof.
    intros count nm names h Hg Hc Hne.
    destruct (fixed_prologue names nm h Hg)
      as (h1 & h2 & h4 & E1 & E2 & E4 & M4 & Nm4 & Gz4 & Zf4 & Zn4 & Nz4 & P4 & Gz3 & Fx4).
    unfold decompose_farhat. rewrite (bind_run _ _ _ _ _ _ _ E1), (bind_run _ _ _ _ _ _ _ E2).
    unfold keep_fixed at 1. rewrite bind_modify. rewrite bind_gets. rewrite Gz3.
    rewrite (bind_run _ _ _ _ _ _ _ E4).
    destruct (create_zones_ok (lit "farhat ") count h4) as (h5 & E5 & F5 & Nz5 & Gz5 & New5 & Old5).
    rewrite (bind_run _ _ _ _ _ _ _ E5). rewrite bind_gets, bind_gets.
    assert (M5 : mesh h5 = mesh h) by (unfold frameC in F5; congruence).
    assert (Efz5 : f_zone h5 = f_zone h4) by (unfold frameC in F5; congruence).
    assert (Gn5 : g_name h5 = g_name h4) by (unfold frameC in F5; congruence).
    assert (Gf5 : g_faces h5 = g_faces h) by (unfold mesh in M5; congruence).
    set (T := seq (next_z h4) count) in *.
    assert (HT : length T = count) by apply seq_length.
    assert (HTn : NoDup T) by apply seq_NoDup.
    assert (Ht5 : topo_ok h5) by (eapply topo_mesh; [eauto|]; apply Hg).
    assert (HTe : forall z, In z T -> z_faces h5 z = []).
    { intros z Hz. apply in_seq in Hz. replace z with (next_z h4 + (z - next_z h4)) by lia.
      apply New5. lia. }
    assert (P5 : pzones h5).
    { apply (pzones_extend h4 h5 T); auto.
      - unfold frameC in F5. congruence.
      - intros z Hz. apply in_seq in Hz. lia.
      - lia.
      - intros z Hz. apply Old5. auto. }
    assert (Hkz : forall z, In z (kept h names) -> z < next_z h4).
    { intros z Hz. rewrite <- Gz4 in Hz. apply (pz_alloc h4 P4). auto. }
    assert (Hkf : forall z, In z (kept h names) -> z_faces h5 z = z_faces h z).
    { intros z Hz. destruct (Old5 z (Hkz z Hz)) as (-> & _). congruence. }
    assert (Efc : faces_count_in_fixed_zones h5 =
                  list_sum (map (fun z => length (z_faces h z)) (kept h names))).
    { unfold faces_count_in_fixed_zones. rewrite Gz5, Gz4, filter_app.
      rewrite (filter_all _ (z_fixed h5) (kept h names)).
      2:{ intros z Hz. destruct (Old5 z (Hkz z Hz)) as (_ & -> & _). auto. }
      rewrite (filter_nil_none _ (z_fixed h5) T).
      2:{ intros z Hz. apply in_seq in Hz. replace z with (next_z h4 + (z - next_z h4)) by lia.
          apply New5. lia. }
      rewrite app_nil_r. f_equal. apply map_ext_in. intros z Hz. rewrite Hkf; auto. }
    set (KS := list_sum (map (fun z => length (z_faces h z)) (kept h names))) in *.
    assert (Hcount : KS + length (free h5) = length (g_faces h)).
    { pose proof (Permutation_length (pzones_perm h5 (t_faces_nd h5 Ht5) P5)) as Hl.
      rewrite Gf5, app_length, concat_length, Gz5, Gz4, map_app, list_sum_app in Hl.
      rewrite (map_ext_in (fun z => length (z_faces h5 z)) (fun z => length (z_faces h z))
               (kept h names)) in Hl by (intros z Hz; rewrite Hkf; auto).
      fold KS in Hl.
      rewrite (map_ext_in (fun z => length (z_faces h5 z)) (fun z => 0) T) in Hl
        by (intros z Hz; rewrite HTe; auto).
      assert (Z0 : list_sum (map (fun _ => 0) T) = 0) by (clear; induction T; auto).
      lia. }
    rewrite Efc, Gf5.
    destruct (g_faces h) as [|f0 fs] eqn:Eg; [congruence|]. rewrite <- Eg in *.
    assert (E0 : py_get (g_faces h) 0 = Ok f0) by (rewrite Eg; reflexivity).
    rewrite E0, bind_lift_ok.
    replace (Z.of_nat (length (g_faces h)) - Z.of_nat KS)%Z
      with (Z.of_nat (length (g_faces h) - KS)) by lia.
    set (U := length (g_faces h) - KS) in *.
    destruct (farhat_zones_ok U count (length (kept h names)) Hc T 0 f0 h5)
      as (h6 & E6 & FM6 & P6 & Fr6 & Zo6 & _ & K6); auto.
    { rewrite Gf5, Eg. simpl; auto. }
    { intros k z Hk. rewrite Gz5, Gz4, nth_error_app2 by lia.
      replace (0 + k + length (kept h names) - length (kept h names)) with k by lia. auto. }
    { rewrite HT, fsum_all by auto. lia. }
    rewrite HT in E6. rewrite (bind_run _ _ _ _ _ _ _ E6).
    pose proof (frameM_fields _ _ FM6) as (M6 & Gz6 & Gf6 & _ & _ & Zn6 & Gn6).
    destruct (finish' h h6 nm) as (h7 & E7 & D7 & Gz7 & Zf7 & Zn7 & _ & _).
    { apply Hg. }
    { congruence. }
    { congruence. }
    { apply pzones_total; auto. }
    exists h7, T. split; [auto|]. split; [auto|]. split; [congruence|]. split; [auto|]. split.
    - intros z Hz. split.
      + rewrite Zf7, Zo6, Hkf; auto. intro Hi. apply in_seq in Hi. apply Hkz in Hz. lia.
      + rewrite Zn7, Zn6. destruct (Old5 z (Hkz z Hz)) as (_ & _ & ->). congruence.
    - intros i z Hi. destruct (K6 i z Hi) as [Hl Hcon]. rewrite Zf7. split.
      + rewrite Zn7, Zn6.
        assert (Hlt : i < count) by (rewrite <- HT; apply nth_error_Some; congruence).
        unfold T in Hi. rewrite nth_error_nth' with (d := 0) in Hi by (rewrite seq_length; auto).
        rewrite seq_nth in Hi by auto. injection Hi as <-. apply New5. auto.
      + split; [exact Hl|]. intros Hcc.
        eapply connected_same; [|intros; reflexivity|apply Hcon]; [auto|].
        eapply connected_same; [|intros; reflexivity|exact Hcc]. auto.
  Qed.
End Farhat.
