(** The decomposition lemmas in the form used by the property theorems. *)

From Coq Require Import ZArith NArith Ascii String Bool Lia List Permutation.
From Verif Require Import Py PyLemmas Heap HeapLemmas GridModel GridSpec DecompSpec DecompProofs AssignProofs
  SimpleDecomp BfsProofs PartialZones FarhatProofs SortProofs SplitProofs HierProofs.
Import ListNotations.
Open Scope list_scope.

Section Main.
  Context {F : FloatOps}.

  Lemma kept_named : forall h names, zones_named h names (kept h names).
  Proof.
    intros h names. unfold zones_named, kept. apply sublist_filter. intros z _.
    unfold mem. rewrite existsb_exists. split.
    - intros (x & Hx & E). apply str_eqb_eq in E. subst. auto.
    - intros H. exists (z_name h z). rewrite str_eqb_refl. auto.
  Qed.

  Lemma axis_signs_mesh : Forall mesh_sign axis_signs.
  Proof.
    assert (G : forall i, mesh_sign (fun h f => coord i (get_center h f))).
    { intros i h h' f E. unfold get_center. apply mesh_fields in E as (_ & Ep & _ & _ & _ & _ & _ & _ & _ & _ & _ & En & _).
      rewrite Ep, En. auto. }
    repeat constructor; apply G.
  Qed.

  (* ---------------------------------------------------------------- *)
  (** ** Zone lists *)

  Lemma lists_contain : forall h, topo_ok h -> zones_ok h -> zone_lists_ok h ->
    forall z f, In z (g_zones h) -> In f (z_faces h z) ->
      incl (f_nodes h f) (z_nodes h z) /\ incl (f_edges h f) (z_edges h z).
  Proof.
    intros h Ht Hz Hl z f Hzin Hf. destruct (Hl z Hzin) as [Hn He].
    apply (zo_faces h Hz) in Hf as [Hfg Hfz]; auto. split.
    - intros n Hnf. destruct (t_face_nodes h Ht f Hfg) as (_ & _ & Hi).
      apply (sublist_In _ _ _ _ n Hn). split; [auto|]. exists f. split; auto. apply (t_nf h Ht); auto.
    - intros e Hef. destruct (t_face_edges h Ht f Hfg) as (_ & _ & Hi).
      apply (sublist_In _ _ _ _ e He). split; [auto|]. exists f. split; auto. apply (t_ef h Ht); auto.
  Qed.

  Lemma zone_list_exact : forall h, topo_ok h -> zone_lists_ok h -> forall z, In z (g_zones h) ->
    NoDup (z_nodes h z) /\ NoDup (z_edges h z) /\
    (forall n, In n (z_nodes h z) <-> In n (g_nodes h) /\ some_face_in h (n_faces h n) z) /\
    (forall e, In e (z_edges h z) <-> In e (g_edges h) /\ some_face_in h (e_faces h e) z).
  Proof.
    intros h Ht Hl z Hz. destruct (Hl z Hz) as [Hn He].
    split; [apply (sublist_NoDup _ _ _ _ Hn), (t_nodes_nd h Ht)|].
    split; [apply (sublist_NoDup _ _ _ _ He), (t_edges_nd h Ht)|].
    split; intros x; [apply (sublist_In _ _ _ _ x Hn)|apply (sublist_In _ _ _ _ x He)].
  Qed.

  (* ---------------------------------------------------------------- *)
  (** ** Returning runs, including the corner cases count = 0 *)

  Lemma link_frame : forall h h', link_nodes_and_edges_to_zones h = (Ok tt, h') ->
    f_zone h' = f_zone h /\ g_faces h' = g_faces h.
  Proof.
    intros h h' H. set (J := fun x : heap => f_zone x = f_zone h /\ g_faces x = g_faces h).
    change (J h'). assert (J0 : J h) by (split; auto).
    unfold link_nodes_and_edges_to_zones in H. rewrite bind_gets in H.
    apply bind_inv in H as ([] & h1 & H1 & H).
    assert (J1 : J h1).
    { apply (for_each_inv _ _ _ (fun _ x => J x) _ _ H1); auto.
      intros done x rest a b _ Ja Hb. rewrite bind_modify in Hb. cbn in Hb. inv Hb. exact Ja. }
    apply bind_inv in H as ([] & h2 & H2 & H).
    assert (J2 : J h2).
    { unfold set_zones_ids in H2. rewrite bind_gets in H2.
      assert (G : forall zs i a b, set_zones_ids_from i zs a = (Ok tt, b) -> J a -> J b).
      { induction zs as [|z zs IH]; intros i a b E Ja; cbn [set_zones_ids_from] in E.
        - inv E. auto.
        - rewrite bind_modify in E. eapply IH; eauto. }
      eapply G; eauto. }
    rewrite bind_gets in H. apply bind_inv in H as ([] & h3 & H3 & H).
    assert (J3 : J h3).
    { apply (for_each_inv _ _ _ (fun _ x => J x) _ _ H3); auto.
      intros done x rest a b _ Ja Hb. apply bind_inv in Hb as (ids & a' & Ea & Hb). inv Ea.
      apply (for_each_inv _ _ _ (fun _ x => J x) _ _ Hb); auto.
      intros done' x' rest' c d _ Jc Hd. rewrite bind_gets in Hd.
      apply bind_inv in Hd as (z & c' & Ec & Hd). inv Ec. inv Hd. exact Jc. }
    rewrite bind_gets in H. apply bind_inv in H as ([] & h4 & H4 & H).
    assert (J4 : J h4).
    { apply (for_each_inv _ _ _ (fun _ x => J x) _ _ H4); auto.
      intros done x rest a b _ Ja Hb. apply bind_inv in Hb as (ids & a' & Ea & Hb). inv Ea.
      apply (for_each_inv _ _ _ (fun _ x => J x) _ _ Hb); auto.
      intros done' x' rest' c d _ Jc Hd. rewrite bind_gets in Hd.
      apply bind_inv in Hd as (z & c' & Ec & Hd). inv Ec. inv Hd. exact Jc. }
    unfold reset_zones_ids in H. rewrite bind_gets in H.
    apply (for_each_inv _ _ _ (fun _ x => J x) _ _ H); auto.
    intros done x rest a b _ Ja Hb. inv Hb. exact Ja.
  Qed.

  Lemma post_assigned : forall h h', post_decompose h = (Ok tt, h') ->
    forall f, In f (g_faces h) -> f_zone h f <> None.
  Proof.
    intros h h' H f Hf. unfold post_decompose in H.
    apply bind_inv in H as ([] & h1 & H1 & H). apply bind_inv in H as ([] & h2 & H2 & _).
    destruct (link_frame _ _ H1) as [Ez Eg].
    unfold check_faces_are_linked_to_zones in H2. rewrite bind_gets in H2.
    assert (G : forall g, In g (g_faces h1) -> f_zone h1 g <> None).
    { apply (for_each_inv _ _ _ (fun done x => x = h1 /\ forall g, In g done -> f_zone h1 g <> None) _ _ H2).
      - split; [auto|intros g []].
      - intros done x rest a b _ [-> Hd] Hb. rewrite bind_gets in Hb.
        destruct (f_zone h1 x) eqn:Ex; [|discriminate]. inv Hb. split; [auto|].
        intros g Hg. apply in_app_or in Hg as [Hg|[<-|[]]]; [auto|congruence]. }
    rewrite <- Ez. apply G. rewrite Eg. auto.
  Qed.

  Lemma random_returns : forall rand count nm h h', grid_ok h ->
    decompose_random rand count nm h = (Ok tt, h') -> decomposed h h' nm.
  Proof.
    intros rand count nm h h' Hg H. destruct (Nat.eq_dec count 0) as [->|Hc].
    - destruct (rename_ok nm h Hg) as (h0 & E0 & G0 & M0 & N0 & _ & _ & _ & _ & _ & Nm0).
      unfold decompose_random in H. rewrite (bind_run _ _ _ _ _ _ _ E0), bind_modify in H.
      destruct (prologue_ok (lit "random ") 0 h0 G0) as (h1 & h2 & E1 & E2 & Em2 & En2 & R2 & _).
      rewrite (bind_run _ _ _ _ _ _ _ E1), (bind_run _ _ _ _ _ _ _ E2), bind_gets in H.
      apply bind_inv in H as ([] & h3 & H3 & H).
      destruct (g_faces h2) as [|f l] eqn:Ef; [|cbn in H3; inv H3]. cbn in H3. inv H3.
      destruct (finish' h h3 nm) as (h4 & E4 & D4 & _).
      + apply Hg.
      + congruence.
      + congruence.
      + destruct R2 as (_ & Rz & _). cbn in Rz. constructor.
        * rewrite Rz. constructor.
        * rewrite Rz. intros z [].
        * rewrite Rz. intros z [].
        * rewrite Rz. intros z f [].
        * rewrite Ef. intros f [].
      + rewrite H in E4. inv E4. auto.
    - destruct (random_ok rand count nm h Hg Hc) as (h1 & E1 & D1 & _). congruence.
  Qed.

  Lemma linear_returns : forall count nm h h', grid_ok h ->
    decompose_linear count nm h = (Ok tt, h') -> decomposed h h' nm.
  Proof.
    intros count nm h h' Hg H. destruct (Nat.eq_dec count 0) as [->|Hc].
    - unfold decompose_linear in H. apply bind_inv in H as ([] & h1 & _ & H). cbn in H. discriminate.
    - destruct (linear_ok count nm h Hg Hc) as (h1 & E1 & D1 & _). congruence.
  Qed.

  Lemma farhat_returns : forall count nm names h h', grid_ok h ->
    decompose_farhat count nm names h = (Ok tt, h') -> decomposed h h' nm.
  Proof.
    intros count nm names h h' Hg H.
    destruct (fixed_prologue names nm h Hg)
      as (h1 & h2 & h4 & E1 & E2 & E4 & M4 & Nm4 & Gz4 & Zf4 & Zn4 & Nz4 & P4 & Gz3 & Fx4).
    destruct (Nat.eq_dec count 0) as [->|Hc].
    - unfold decompose_farhat in H. rewrite (bind_run _ _ _ _ _ _ _ E1), (bind_run _ _ _ _ _ _ _ E2) in H.
      unfold keep_fixed at 1 in H. rewrite bind_modify, bind_gets in H.
      rewrite (bind_run _ _ _ _ _ _ _ E4) in H.
      destruct (create_zones_ok (lit "farhat ") 0 h4) as (h5 & E5 & _).
      assert (h5 = h4) by (unfold create_zones in E5; cbn in E5; inv E5; auto). subst h5.
      rewrite (bind_run _ _ _ _ _ _ _ E5), !bind_gets in H.
      apply bind_inv in H as (s & h6 & H6 & H). inv H6.
      cbn [farhat_zones] in H. rewrite bind_ret in H.
      pose proof (post_assigned _ _ H) as Ha.
      destruct (finish' h h6 nm) as (h7 & E7 & D7 & _); auto.
      + apply Hg.
      + apply pzones_total; auto. destruct (free h6) as [|f l] eqn:Ef; auto. exfalso.
        assert (Hf : In f (free h6)) by (rewrite Ef; simpl; auto).
        apply free_In in Hf as [Hf Hn]. apply (Ha f); auto.
      + congruence.
    - destruct (g_faces h) as [|f l] eqn:Ef.
      + exfalso. unfold decompose_farhat in H.
        rewrite (bind_run _ _ _ _ _ _ _ E1), (bind_run _ _ _ _ _ _ _ E2) in H.
        unfold keep_fixed at 1 in H. rewrite bind_modify, bind_gets in H.
        rewrite (bind_run _ _ _ _ _ _ _ E4) in H.
        destruct (create_zones_ok (lit "farhat ") count h4) as (h5 & E5 & F5 & _).
        rewrite (bind_run _ _ _ _ _ _ _ E5), !bind_gets in H.
        assert (Eg : g_faces h5 = []).
        { assert (mesh h5 = mesh h4) by (unfold frameC in F5; congruence).
          unfold mesh in *. congruence. }
        rewrite Eg in H. cbn in H. discriminate.
      + destruct (farhat_ok count nm names h Hg Hc) as (h5 & T & E5 & D5 & _); [congruence|]. congruence.
  Qed.

  Lemma hier_returns : forall fns levels nm names h h', order_ok -> Forall mesh_sign fns -> grid_ok h ->
    decompose_hierarchical fns levels nm names h = (Ok tt, h') -> decomposed h h' nm.
  Proof.
    intros fns levels nm names h h' Ho Hms Hg H.
    destruct (Nat.eq_dec levels 0) as [->|Hl].
    - exfalso. destruct (fixed_prologue names nm h Hg)
        as (h1 & h2 & h4 & E1 & E2 & E4 & _).
      unfold decompose_hierarchical in H.
      rewrite (bind_run _ _ _ _ _ _ _ E1), (bind_run _ _ _ _ _ _ _ E2) in H.
      unfold keep_fixed in H. rewrite bind_modify in H. rewrite (bind_run _ _ _ _ _ _ _ E4) in H.
      cbn in H. discriminate.
    - destruct (hierarchical_ok Ho fns levels nm names h Hms Hg) as (r & h1 & E & _ & G); [lia|].
      rewrite H in E. inv E. apply G. auto.
  Qed.

  Lemma mono_returns : forall nm h h', grid_ok h ->
    decompose_mono nm h = (Ok tt, h') -> decomposed h h' nm.
  Proof.
    intros nm h h' Hg H. destruct (mono_ok nm h Hg) as (h1 & z & E & D & _). congruence.
  Qed.

  Lemma partition_ok : forall nm d h h', grid_ok h -> decomposition nm d -> d h = (Ok tt, h') ->
    mesh h' = mesh h /\
    (forall f, In f (g_faces h) -> exists z,
       In z (g_zones h') /\ f_zone h' f = Some z /\
       count_occ Nat.eq_dec (z_faces h' z) f = 1 /\
       (forall z', In z' (g_zones h') -> z' <> z -> ~ In f (z_faces h' z'))) /\
    (forall z f, In z (g_zones h') -> In f (z_faces h' z) -> In f (g_faces h)) /\
    Permutation (concat (map (z_faces h') (g_zones h'))) (g_faces h) /\
    NoDup (g_zones h').
  Proof.
    intros nm d h h' Hg Hd E.
    assert (D : decomposed h h' nm).
    { inv Hd; eauto using mono_returns, random_returns, linear_returns, farhat_returns, hier_returns. }
    destruct D as (Hm & _ & Hz & _ & _). split; [auto|].
    assert (Eg : g_faces h' = g_faces h) by (unfold mesh in Hm; congruence).
    split; [|split; [|split]].
    - intros f Hf. destruct (zo_cover h' Hz f) as (z & Hzin & Efz); [congruence|].
      assert (Hin : In f (z_faces h' z)) by (apply (zo_faces h' Hz); auto; split; congruence).
      exists z. split; [auto|]. split; [auto|]. split.
      + apply NoDup_count_occ'; auto. apply (zo_faces_nd h' Hz); auto.
      + intros z' Hz' Hne Hc. apply (zo_faces h' Hz) in Hc as [_ Hc]; auto. congruence.
    - intros z f Hzin Hf. apply (zo_faces h' Hz) in Hf as [Hf _]; auto. congruence.
    - assert (P : pzones h') by (apply zones_pzones; auto).
      assert (Ht' : topo_ok h') by (eapply topo_mesh; [eauto|]; apply Hg).
      pose proof (pzones_perm h' (t_faces_nd h' Ht') P) as Hp.
      assert (Hfr : free h' = []).
      { destruct (free h') as [|f l] eqn:Ef; auto. exfalso.
        assert (Hf : In f (free h')) by (rewrite Ef; simpl; auto).
        apply free_In in Hf as [Hf Hn]. destruct (zo_cover h' Hz f Hf) as (z & _ & Ez). congruence. }
      rewrite Hfr, app_nil_r in Hp. congruence.
    - apply (zo_nd h' Hz).
  Qed.

  Lemma lists_after : forall nm d h h', grid_ok h -> decomposition nm d -> d h = (Ok tt, h') ->
    forall z, In z (g_zones h') ->
      sublist_of (fun n => some_face_in h' (n_faces h' n) z) (g_nodes h') (z_nodes h' z) /\
      sublist_of (fun e => some_face_in h' (e_faces h' e) z) (g_edges h') (z_edges h' z) /\
      NoDup (z_nodes h' z) /\ NoDup (z_edges h' z) /\
      (forall f, In f (z_faces h' z) ->
         incl (f_nodes h' f) (z_nodes h' z) /\ incl (f_edges h' f) (z_edges h' z)).
  Proof.
    intros nm d h h' Hg Hd E z Hz.
    assert (D : decomposed h h' nm).
    { inv Hd; eauto using mono_returns, random_returns, linear_returns, farhat_returns, hier_returns. }
    destruct D as (Hm & _ & Hzo & Hl & _).
    assert (Ht' : topo_ok h') by (eapply topo_mesh; [eauto|]; apply Hg).
    destruct (Hl z Hz) as [H1 H2]. destruct (zone_list_exact h' Ht' Hl z Hz) as (H3 & H4 & _).
    split; [auto|]. split; [auto|]. split; [auto|]. split; [auto|].
    intros f Hf. apply lists_contain; auto.
  Qed.

  Lemma link_any : forall h, topo_ok h -> zones_ok h ->
    exists h', post_decompose h = (Ok tt, h') /\ mesh h' = mesh h /\ f_zone h' = f_zone h /\
      z_faces h' = z_faces h /\ g_zones h' = g_zones h /\ z_name h' = z_name h /\
      (forall i z, nth_error (g_zones h') i = Some z -> z_id h' z = Z.of_nat i) /\
      forall z, In z (g_zones h) ->
        sublist_of (fun n => some_face_in h (n_faces h n) z) (g_nodes h) (z_nodes h' z) /\
        sublist_of (fun e => some_face_in h (e_faces h e) z) (g_edges h) (z_edges h' z).
  Proof.
    intros h Ht Hz. destruct (post_ok h Ht Hz) as (h' & E & Hf & _ & Hl & Hi).
    exists h'. split; [auto|].
    pose proof (frameL_fields _ _ Hf) as (E1 & E2 & E3 & E4 & E5 & E6 & E7 & E8).
    split; [auto|]. split; [auto|]. split; [unfold frameL in Hf; congruence|]. split; [auto|].
    split; [unfold frameL in Hf; congruence|]. split; [exact Hi|].
    intros z Hzin. rewrite <- E4 in Hzin. destruct (Hl z Hzin) as [H1 H2].
    unfold some_face_in in *. rewrite E1, E5, E3 in H1. rewrite E2, E6, E3 in H2. auto.
  Qed.

  (* ---------------------------------------------------------------- *)
  (** ** Linear *)

  Lemma div_plus : forall n c, c <> 0 -> forall i j, i <= j ->
    n / c + (if j <? n mod c then 1 else 0) <= n / c + (if i <? n mod c then 1 else 0) <= S (n / c).
  Proof.
    intros n c Hc i j Hij. destruct (Nat.ltb_spec j (n mod c)); destruct (Nat.ltb_spec i (n mod c)); lia.
  Qed.

  Lemma linear_main : forall count nm h, grid_ok h -> count <> 0 ->
    exists h', decompose_linear count nm h = (Ok tt, h') /\ decomposed h h' nm /\
      length (g_zones h') = count /\
      concat (map (z_faces h') (g_zones h')) = g_faces h /\
      (forall i z, nth_error (g_zones h') i = Some z -> z_name h' z = lit "linear " ++ nat_str i) /\
      (forall i j z y, i <= j -> nth_error (g_zones h') i = Some z -> nth_error (g_zones h') j = Some y ->
         length (z_faces h' y) <= length (z_faces h' z) <= S (length (z_faces h' y))).
  Proof.
    intros count nm h Hg Hc. destruct (linear_ok count nm h Hg Hc) as (h' & E & D & L & C & N).
    exists h'. split; [auto|]. split; [auto|]. split; [auto|]. split; [auto|]. split.
    - intros i z Hz. apply N. auto.
    - intros i j z y Hij Hz Hy. destruct (N i z Hz) as [_ ->]. destruct (N j y Hy) as [_ ->].
      pose proof (div_plus (length (g_faces h)) count Hc i j Hij).
      destruct (j <? length (g_faces h) mod count); lia.
  Qed.

  (* ---------------------------------------------------------------- *)
  (** ** Farhat *)

  Lemma perm_sum : forall h, topo_ok h -> zones_ok h ->
    list_sum (map (fun z => length (z_faces h z)) (g_zones h)) = length (g_faces h).
  Proof.
    intros h Ht Hz. assert (P : pzones h) by (apply zones_pzones; auto).
    pose proof (Permutation_length (pzones_perm h (t_faces_nd h Ht) P)) as Hp.
    assert (Hfr : free h = []).
    { destruct (free h) as [|f l] eqn:Ef; auto. exfalso.
      assert (Hf : In f (free h)) by (rewrite Ef; simpl; auto).
      apply free_In in Hf as [Hf Hn]. destruct (zo_cover h Hz f Hf) as (z & _ & Ez). congruence. }
    rewrite Hfr, app_nil_r, concat_length in Hp. auto.
  Qed.

  Lemma farhat_main : forall count nm names h, grid_ok h -> count <> 0 -> g_faces h <> [] ->
    exists h' K T, decompose_farhat count nm names h = (Ok tt, h') /\ decomposed h h' nm /\
      zones_named h names K /\ g_zones h' = K ++ T /\ length T = count /\
      (forall z, In z K -> z_faces h' z = z_faces h z /\ z_name h' z = z_name h z) /\
      (forall i z, nth_error T i = Some z -> z_name h' z = lit "farhat " ++ nat_str i) /\
      (forall i j z y, i <= j -> nth_error T i = Some z -> nth_error T j = Some y ->
         length (z_faces h' y) <= length (z_faces h' z) <= S (length (z_faces h' y))) /\
      list_sum (map (fun z => length (z_faces h' z)) T) +
        list_sum (map (fun z => length (z_faces h z)) K) = length (g_faces h).
  Proof.
    intros count nm names h Hg Hc Hne.
    destruct (farhat_ok count nm names h Hg Hc Hne) as (h' & T & E & D & Gz & L & K & N).
    exists h', (kept h names), T. split; [auto|]. split; [auto|]. split; [apply kept_named|].
    split; [auto|]. split; [auto|]. split; [auto|]. split; [intros i z Hz; apply N; auto|]. split.
    - intros i j z y Hij Hz Hy. destruct (N i z Hz) as (_ & -> & _). destruct (N j y Hy) as (_ & -> & _).
      unfold fsize.
      match goal with |- context [?n / count] =>
        pose proof (div_plus n count Hc i j Hij); destruct (j <? n mod count); lia end.
    - destruct D as (Hm & _ & Hz & _). assert (Ht : topo_ok h') by (eapply topo_mesh; [eauto|]; apply Hg).
      pose proof (perm_sum h' Ht Hz) as Hs. rewrite Gz, map_app, list_sum_app in Hs.
      assert (Eg : g_faces h' = g_faces h) by (unfold mesh in Hm; congruence).
      rewrite <- Eg.
      rewrite (map_ext_in (fun z => length (z_faces h z)) (fun z => length (z_faces h' z))).
      + lia.
      + intros z Hz'. destruct (K z Hz') as [-> _]. auto.
  Qed.

  Lemma farhat_connected : forall count nm names h, grid_ok h -> count <> 0 -> g_faces h <> [] ->
    exists h' K T, decompose_farhat count nm names h = (Ok tt, h') /\
      zones_named h names K /\ g_zones h' = K ++ T /\
      (forall i z, nth_error T i = Some z ->
         connected h (concat (map (z_faces h') (skipn i T))) -> connected h (z_faces h' z)).
  Proof.
    intros count nm names h Hg Hc Hne.
    destruct (farhat_ok count nm names h Hg Hc Hne) as (h' & T & E & D & Gz & L & K & N).
    exists h', (kept h names), T. split; [auto|]. split; [apply kept_named|]. split; [auto|].
    intros i z Hz. apply N. auto.
  Qed.

  (* ---------------------------------------------------------------- *)
  (** ** Breadth-first search *)

  Lemma bfs_path_main : forall h pred start, topo_ok h -> ignores_marks pred ->
    In start (g_faces h) ->
    exists p m, bfs_path start pred h = (Ok p, set_f_mark h m) /\
      NoDup p /\ (forall g, In g p <-> In g (g_faces h) /\ pred h g = true).
  Proof.
    intros h pred start Ht Hp Hs.
    destruct (bfs_path_ok h pred Ht (fun v f => Hp h v f) start Hs) as (p & m & E & N & I & _).
    exists p, m. split; [exact E|]. split; [auto|]. exact I.
  Qed.

  Lemma bfs_component_main : forall h pred start, topo_ok h -> ignores_marks pred ->
    In start (g_faces h) -> pred h start = true ->
    (forall f, In f (g_faces h) -> f_mark h f = Some false) ->
    exists p m, bfs_component start pred h = (Ok p, set_f_mark h m) /\
      NoDup p /\ hd_error p = Some start /\
      (forall g, In g p <-> reach h (fun f => In f (g_faces h) /\ pred h f = true) start g) /\
      (forall k, connected h (firstn k p)) /\
      (forall f, m f = if in_dec Nat.eq_dec f p then Some true else f_mark h f).
  Proof.
    intros h pred start Ht Hp Hs Hps Hm.
    assert (Eh : set_f_mark h (f_mark h) = h) by (destruct h; reflexivity).
    destruct (bfs_component_ok h pred Ht (fun v f => Hp h v f) (f_mark h) start)
      as (p & m & E & M & C & _); auto.
    { intros g Hg. rewrite Hm by auto. discriminate. }
    rewrite Eh in E. exists p, m. split; [exact E|].
    destruct C as (N & Hd & Hc & Hr).
    { split; auto. }
    split; [auto|]. split; [auto|]. split.
    - intros g. rewrite Hr. split; apply reach_weaken.
      + intros x (H1 & H2 & _). auto.
      + intros x (H1 & H2). split; auto.
    - split; [|exact M]. intros k. apply chain_connected; auto; [|apply chain_firstn; auto].
      intros g Hg. assert (Hin : In g p) by (rewrite <- (firstn_skipn k p); apply in_or_app; auto).
      apply Hr, reach_in in Hin. destruct Hin as (_ & H1 & _). auto.
  Qed.

  (* ---------------------------------------------------------------- *)
  (** ** Hierarchical *)

  Lemma hier_keeps : forall fns levels nm names h h', order_ok -> Forall mesh_sign fns -> grid_ok h ->
    decompose_hierarchical fns levels nm names h = (Ok tt, h') ->
    exists K N, zones_named h names K /\ g_zones h' = K ++ N /\
      length N <= 2 ^ (levels - 1) /\ 1 <= levels /\
      (forall z, In z K -> z_faces h' z = z_faces h z /\ z_name h' z = z_name h z) /\
      (forall z, In z N -> exists w, z_name h' z = lit "h" ++ w /\
         Forall (fun c => c = "l"%char \/ c = "r"%char) w) /\
      ((exists f, outside h K f) -> forall z, In z N -> z_faces h' z <> []).
  Proof.
    intros fns levels nm names h h' Ho Hms Hg H.
    destruct (Nat.eq_dec levels 0) as [->|Hl].
    { exfalso. destruct (fixed_prologue names nm h Hg) as (h1 & h2 & h4 & E1 & E2 & E4 & _).
      unfold decompose_hierarchical in H.
      rewrite (bind_run _ _ _ _ _ _ _ E1), (bind_run _ _ _ _ _ _ _ E2) in H.
      unfold keep_fixed in H. rewrite bind_modify in H. rewrite (bind_run _ _ _ _ _ _ _ E4) in H.
      cbn in H. discriminate. }
    destruct (hierarchical_ok Ho fns levels nm names h Hms Hg) as (r & h1 & E & _ & G); [lia|].
    rewrite H in E. inv E. destruct (G eq_refl) as (D & N & Gz & HN & HK & Hnm & Hne & _).
    exists (kept h names), N. split; [apply kept_named|]. split; [auto|]. split; [auto|].
    split; [lia|]. split; [auto|]. split; [auto|].
    intros (f & Hf & Hfk). apply Hne. unfold U.
    destruct Hg as [Ht Hz]. pose proof (perm_sum h Ht Hz) as Hs.
    destruct (zo_cover h Hz f Hf) as (z & Hzin & Efz).
    assert (Hzk : ~ In z (kept h names)).
    { intro Hc. apply (Hfk z Hc). apply (zo_faces h Hz); auto. }
    assert (Hzf : 1 <= length (z_faces h z)).
    { assert (In f (z_faces h z)) by (apply (zo_faces h Hz); auto).
      destruct (z_faces h z); [destruct H0|cbn; lia]. }
    assert (G2 : forall (g : nat -> nat) (b : nat -> bool) l, In z l -> b z = false ->
      list_sum (map g (filter b l)) + g z <= list_sum (map g l)).
    { clear. intros g b l. induction l as [|x l IH]; intros Hin Hb; [destruct Hin|].
      destruct Hin as [->|Hin]; cbn [filter map].
      - rewrite Hb. unfold list_sum. cbn [fold_right map]. fold (list_sum (map g l)).
        assert (list_sum (map g (filter b l)) <= list_sum (map g l)).
        { clear. induction l as [|x l IH]; cbn; auto. destruct (b x); cbn; unfold list_sum in *; lia. }
        unfold list_sum in *. lia.
      - specialize (IH Hin Hb). destruct (b x); cbn [map]; unfold list_sum in *; cbn [fold_right]; lia. }
    specialize (G2 (fun z => length (z_faces h z)) (fun z => mem (str_eqb (z_name h z)) names) (g_zones h) Hzin).
    unfold kept in *. cbv beta in G2.
    destruct (mem (str_eqb (z_name h z)) names) eqn:Em.
    { exfalso. apply Hzk. apply filter_In. auto. }
    specialize (G2 eq_refl). lia.
  Qed.

  Lemma hier_total : forall f0 fl levels nm names K h, order_ok -> Forall mesh_sign (f0 ++ [fl]) ->
    grid_ok h -> 1 <= levels -> zones_named h names K -> separates h K fl ->
    exists h', decompose_hierarchical (f0 ++ [fl]) levels nm names h = (Ok tt, h') /\ decomposed h h' nm.
  Proof.
    intros f0 fl levels nm names K h Ho Hms Hg Hl HK Hs.
    assert (K = kept h names) by (eapply sublist_unique; eauto; apply kept_named). subst K.
    destruct (hierarchical_ok Ho _ levels nm names h Hms Hg Hl) as (r & h1 & E & T & G).
    rewrite E. assert (r = Ok tt) as ->.
    { apply T. exists f0, fl. split; auto. }
    exists h1. split; auto. apply G. auto.
  Qed.

  Lemma hier_exact : forall f0 fl levels nm names K h, order_ok -> Forall mesh_sign (f0 ++ [fl]) ->
    grid_ok h -> 1 <= levels -> zones_named h names K -> Forall (separates h K) (f0 ++ [fl]) ->
    let u := length (g_faces h) - list_sum (map (fun z => length (z_faces h z)) K) in
    2 ^ (levels - 1) <= u ->
    exists h' N, decompose_hierarchical (f0 ++ [fl]) levels nm names h = (Ok tt, h') /\
      g_zones h' = K ++ N /\ length N = 2 ^ (levels - 1) /\
      (forall z, In z N -> length (z_faces h' z) = u / 2 ^ (levels - 1) \/
                           length (z_faces h' z) = S (u / 2 ^ (levels - 1))).
  Proof.
    intros f0 fl levels nm names K h Ho Hms Hg Hl HK Hs u Hu.
    assert (K = kept h names) by (eapply sublist_unique; eauto; apply kept_named). subst K.
    destruct (hierarchical_ok Ho _ levels nm names h Hms Hg Hl) as (r & h1 & E & T & G).
    rewrite E. assert (r = Ok tt) as ->.
    { apply T. exists f0, fl. split; auto. apply Forall_app in Hs as [_ Hs]. inv Hs. auto. }
    destruct (G eq_refl) as (_ & N & Gz & _ & _ & _ & _ & Hex).
    exists h1, N. split; [auto|]. split; [auto|]. apply Hex; auto.
  Qed.

  (* ---------------------------------------------------------------- *)
  (** ** Splitting *)

  Lemma filter_length_le : forall A (p q : A -> bool) l, (forall x, p x = true -> q x = true) ->
    length (filter p l) <= length (filter q l).
  Proof.
    intros A p q l H. induction l as [|x l IH]; cbn; auto.
    destruct (p x) eqn:E; [rewrite (H x E); cbn; lia|]. destruct (q x); cbn; lia.
  Qed.

  Lemma filter_drop : forall A (p q : A -> bool) l, (forall x, p x = true -> q x = false) ->
    length (filter p l) + length (filter q l) <= length l.
  Proof.
    intros A p q l H. induction l as [|x l IH]; cbn; auto.
    destruct (p x) eqn:E; [rewrite (H x E); cbn; lia|]. destruct (q x); cbn; lia.
  Qed.

  Lemma blade_median : order_ok -> forall h fn fs b, blade_of h fn fs = Ok b -> fs <> [] ->
    upper_median h fn fs b.
  Proof.
    intros Ho h fn fs b Hb Hne. destruct (blade_ok Ho h fn fs Hne) as (b' & Eb & Hlow & g & Hg & Eg).
    assert (Hbb : b' = b) by congruence. rewrite Hbb in *. clear Hbb b'.
    split; [rewrite <- Eg; apply in_map; auto|].
    split; [auto|]. unfold blade_of in Hb. set (l := sort_vals (map (fn h) fs)) in *.
    assert (Hp : Permutation l (map (fn h) fs)) by apply sort_perm.
    assert (Hl : length l = length fs) by (rewrite (Permutation_length Hp); apply map_length).
    assert (Hlt : length l / 2 < length l).
    { apply Nat.div_lt; [|lia]. rewrite Hl. destruct fs; [congruence|cbn; lia]. }
    assert (En : nth_error l (length l / 2) = Some b).
    { destruct (nth_error l (length l / 2)) as [c|] eqn:En; [|apply nth_error_None in En; lia].
      rewrite (py_get_nat _ _ _ _ En) in Hb. congruence. }
    pose proof (sort_sorted Ho (map (fn h) fs)) as Hs. fold l in Hs.
    pose proof (sorted_before _ _ _ Hs En) as Hbef.
    rewrite <- (filter_map_length _ _ (fn h) (fun x => negb (vltb b x))).
    rewrite <- (filter_length_perm _ _ _ _ Hp), <- Hl.
    apply nth_error_split in En as (l1 & l2 & El & Hl1).
    rewrite <- Hl1. rewrite <- Hl1 in Hbef.
    assert (Ef : firstn (length l1) l = l1) by (rewrite El, firstn_app, Nat.sub_diag, firstn_all; apply app_nil_r).
    rewrite Ef in Hbef. rewrite El, filter_app, app_length. cbn [filter].
    rewrite (o_irr Ho). cbn [negb length].
    rewrite (filter_all _ _ l1); [lia|]. intros x Hx. rewrite Forall_forall in Hbef.
    specialize (Hbef x Hx). unfold leq in Hbef. rewrite Hbef. auto.
  Qed.

  Lemma median_le : order_ok -> forall h fn fs b c, upper_median h fn fs b -> upper_median h fn fs c ->
    vltb b c = false.
  Proof.
    intros Ho h fn fs b c (_ & _ & Hb) (_ & Hc & _). destruct (vltb b c) eqn:E; auto. exfalso.
    assert (length (filter (fun f => negb (vltb b (fn h f))) fs) <=
            length (filter (fun f => vltb (fn h f) c) fs)); [|lia].
    apply filter_length_le. intros x Hx. destruct (o_weak Ho b c (fn h x) E) as [H|H]; auto.
    rewrite H in Hx. discriminate.
  Qed.

  Lemma median_same : order_ok -> forall h fn fs b c, upper_median h fn fs b -> upper_median h fn fs c ->
    forall x, vltb x b = vltb x c.
  Proof.
    intros Ho h fn fs b c Hb Hc x.
    pose proof (median_le Ho h fn fs b c Hb Hc) as H1. pose proof (median_le Ho h fn fs c b Hc Hb) as H2.
    destruct (vltb x b) eqn:E1; destruct (vltb x c) eqn:E2; auto.
    - destruct (o_weak Ho x b c E1); congruence.
    - destruct (o_weak Ho x c b E2); congruence.
  Qed.

  Lemma halves_eq : order_ok -> forall h fn fs b l r, fs <> [] -> blade_of h fn fs = Ok b ->
    halves h fn fs l r -> l = lefts h fn b fs /\ r = rights h fn b fs.
  Proof.
    intros Ho h fn fs b l r Hne Hb (c & Hc & Hl & Hr).
    pose proof (median_same Ho h fn fs b c (blade_median Ho _ _ _ _ Hb Hne) Hc) as Hs. split.
    - apply (sublist_unique _ _ _ _ _ Hl). unfold lefts. apply sublist_filter.
      intros x _. rewrite Hs. tauto.
    - apply (sublist_unique _ _ _ _ _ Hr). unfold rights. apply sublist_filter.
      intros x _. rewrite Hs. destruct (vltb (fn h x) c); cbn; intuition congruence.
  Qed.

  Lemma blade_halves : order_ok -> forall h fn fs b, fs <> [] -> blade_of h fn fs = Ok b ->
    halves h fn fs (lefts h fn b fs) (rights h fn b fs).
  Proof.
    intros Ho h fn fs b Hne Hb. exists b. split; [apply blade_median; auto|].
    split; apply sublist_filter; intros x _; [tauto|].
    destruct (vltb (fn h x) b); cbn; intuition congruence.
  Qed.

  Lemma halves_ex : order_ok -> forall h fn fs, fs <> [] -> exists l r, halves h fn fs l r.
  Proof.
    intros Ho h fn fs Hne. destruct (blade_ok Ho h fn fs Hne) as (b & Eb & _).
    eauto using blade_halves.
  Qed.

  Lemma halves_facts : order_ok -> forall h fn fs l r, NoDup fs -> fs <> [] -> halves h fn fs l r ->
    (forall f g, In f l -> In g r -> vltb (fn h f) (fn h g) = true) /\
    (forall f, In f fs <-> In f l \/ In f r) /\
    r <> [] /\ length l <= length r /\ length l + length r = length fs /\
    (signs_differ (fn h) fs -> length l = length fs / 2).
  Proof.
    intros Ho h fn fs l r Hnd Hne Hh.
    destruct (blade_ok Ho h fn fs Hne) as (b & Eb & Hlow & g & Hg & Eg).
    destruct (halves_eq Ho h fn fs b l r Hne Eb Hh) as [-> ->].
    assert (Hsum : length (lefts h fn b fs) + length (rights h fn b fs) = length fs)
      by apply filter_partition.
    fold (lefts h fn b fs) in Hlow.
    assert (Hd : length fs / 2 + length fs / 2 <= length fs).
    { pose proof (Nat.div_mod (length fs) 2 ltac:(lia)). lia. }
    split; [|split; [|split; [|split; [lia|split; [auto|]]]]].
    - intros x y Hx Hy. apply filter_In in Hx as [_ Hx]. apply filter_In in Hy as [_ Hy].
      destruct (o_weak Ho _ _ (fn h y) Hx) as [H|H]; auto. rewrite H in Hy. discriminate.
    - intros x. unfold lefts, rights. rewrite !filter_In. destruct (vltb (fn h x) b); cbn; intuition congruence.
    - intro Hc. assert (Hin : In g (rights h fn b fs)).
      { apply filter_In. split; auto. rewrite Eg, (o_irr Ho). auto. }
      rewrite Hc in Hin. destruct Hin.
    - intros Hsd. apply (blade_distinct Ho); auto.
  Qed.

  Lemma nondeg_halves : order_ok -> forall h fn fs l r, fs <> [] -> halves h fn fs l r ->
    (nondeg h fn fs <-> l <> []).
  Proof.
    intros Ho h fn fs l r Hne Hh. destruct (blade_ok Ho h fn fs Hne) as (b & Eb & _).
    destruct (halves_eq Ho h fn fs b l r Hne Eb Hh) as [-> ->]. split.
    - intros (b' & f & Eb' & Hf & Hlt) Hc. assert (b' = b) by congruence. subst b'.
      assert (Hin : In f (lefts h fn b fs)) by (apply filter_In; auto). rewrite Hc in Hin. destruct Hin.
    - intros Hl. destruct (lefts h fn b fs) as [|f ls] eqn:El; [congruence|].
      assert (Hin : In f (lefts h fn b fs)) by (rewrite El; simpl; auto).
      apply filter_In in Hin as [H1 H2]. exists b, f. auto.
  Qed.

  Lemma split_zone_returns : order_ok -> forall fns h zone pre post h', Forall mesh_sign fns -> grid_ok h ->
    g_zones h = pre ++ zone :: post -> z_fixed h zone = false -> 2 <= length (z_faces h zone) ->
    split_zone zone fns h = (Ok tt, h') ->
    let fs := z_faces h zone in
    exists fn l r zl zr, In fn fns /\ halves h fn fs l r /\ l <> [] /\
      (forall fn' l' r', In fn' fns -> halves h fn' fs l' r' -> l' <> [] ->
         cut_count h l r <= cut_count h l' r') /\
      mesh h' = mesh h /\ ~ In zl (g_zones h) /\ ~ In zr (g_zones h) /\ zl <> zr /\
      g_zones h' = pre ++ post ++ [zl; zr] /\ z_faces h' zl = l /\ z_faces h' zr = r /\
      z_name h' zl = z_name h zone ++ lit "l" /\ z_name h' zr = z_name h zone ++ lit "r" /\
      (forall z, In z (g_zones h) -> z <> zone ->
         z_faces h' z = z_faces h z /\ z_name h' z = z_name h z /\ z_fixed h' z = z_fixed h z) /\
      zones_ok h'.
  Proof.
    intros Ho fns h zone pre post h' Hms [Ht Hz] Eg Hfx Hlen E fs.
    assert (Hne : fs <> []) by (unfold fs; intro Hc; rewrite Hc in Hlen; cbn in Hlen; lia).
    destruct (split_zone_main Ho fns h zone pre post Hms Ht Hz Eg Hfx Hlen)
      as [(f0 & fl & _ & _ & h1 & fn & b & E1 & Hin & Eb & Hnd & Hmin & Hm & _ & _ & Gz & Zl & Zr & Nl & Nr
           & _ & _ & Ho' & Hz')|(_ & h1 & E1)]; [|congruence].
    assert (h1 = h') by congruence. subst h1. fold fs in Eb, Hnd, Hmin, Zl, Zr.
    pose proof (blade_halves Ho h fn fs b Hne Eb) as Hh.
    assert (Hal : forall z, In z (g_zones h) -> z < next_z h) by (apply (zo_alloc h Hz)).
    exists fn, (lefts h fn b fs), (rights h fn b fs), (next_z h), (S (next_z h)).
    split; [auto|]. split; [auto|]. split; [apply (nondeg_halves Ho h fn fs _ _ Hne Hh); auto|].
    split.
    { intros fn' l' r' Hf' Hh' Hl'. destruct (blade_ok Ho h fn' fs Hne) as (b' & Eb' & _).
      pose proof (nondeg_halves Ho h fn' fs l' r' Hne Hh') as [_ Hn]. specialize (Hn Hl').
      destruct (halves_eq Ho h fn' fs b' l' r' Hne Eb' Hh') as [-> ->]. apply Hmin; auto. }
    split; [auto|]. split; [intro Hc; apply Hal in Hc; lia|]. split; [intro Hc; apply Hal in Hc; lia|].
    split; [lia|]. split; [rewrite Gz; rewrite app_assoc; auto|].
    split; [auto|]. split; [auto|]. split; [auto|]. split; [auto|]. split; [|auto].
    intros z Hzi Hzn. apply Ho'; auto.
  Qed.

  Lemma split_zone_succeeds : order_ok -> forall f0 fl h zone pre post l r,
    Forall mesh_sign (f0 ++ [fl]) -> grid_ok h ->
    g_zones h = pre ++ zone :: post -> z_fixed h zone = false -> 2 <= length (z_faces h zone) ->
    halves h fl (z_faces h zone) l r ->
    (l <> [] <-> exists h', split_zone zone (f0 ++ [fl]) h = (Ok tt, h')).
  Proof.
    intros Ho f0 fl h zone pre post l r Hms [Ht Hz] Eg Hfx Hlen Hh.
    assert (Hne : z_faces h zone <> []) by (intro Hc; rewrite Hc in Hlen; cbn in Hlen; lia).
    rewrite <- (nondeg_halves Ho h fl _ l r Hne Hh).
    destruct (split_zone_main Ho (f0 ++ [fl]) h zone pre post Hms Ht Hz Eg Hfx Hlen)
      as [(f0' & fl' & Ef & Hnd & h1 & fn & b & E1 & _)|(Hbad & h1 & E1)].
    - apply app_inj_tail in Ef as [_ <-]. split; eauto.
    - split.
      + intros Hnd. exfalso. apply (Hbad f0 fl); auto.
      + intros (h' & E). congruence.
  Qed.

  Lemma metric_main : order_ok -> forall h zone zl zr fn l r, mesh_sign fn -> grid_ok h ->
    In zone (g_zones h) -> z_faces h zone <> [] -> zl <> zr ->
    (forall f, In f (g_faces h) -> f_zone h f <> Some zl /\ f_zone h f <> Some zr) ->
    halves h fn (z_faces h zone) l r -> l <> [] ->
    exists v, split_zone_metric zone zl zr fn h = (Ok (Some (2 * cut_count h l r)), set_f_zone h v) /\
      (forall f, v f = f_zone h f).
  Proof.
    intros Ho h zone zl zr fn l r Hm [Ht Hz] Hzin Hne Hzz Hfree Hh Hl.
    assert (Hfs : forall f, In f (z_faces h zone) <-> In f (g_faces h) /\ f_zone h f = Some zone)
      by (intros f; apply (zo_faces h Hz); auto).
    destruct (metric_ok Ho h zone zl zr fn Hm Ht Hne) as (b & v & Eb & Hv & Hcase); auto.
    { apply (zo_faces_nd h Hz); auto. }
    { intros f Hf. apply Hfs. auto. }
    destruct (halves_eq Ho h fn _ b l r Hne Eb Hh) as [El Er].
    destruct Hcase as [(_ & E & Hin)|(Hnd & _)].
    - exists v. rewrite El, Er. split; [auto|]. intros f.
      destruct (in_dec Nat.eq_dec f (z_faces h zone)) as [Hf|Hf]; [|auto].
      rewrite Hin by auto. apply Hfs in Hf as [_ Hf]. auto.
    - exfalso. apply Hnd. apply (nondeg_halves Ho h fn _ l r Hne Hh). auto.
  Qed.

  Lemma metric_degenerate : order_ok -> forall h zone zl zr fn r, mesh_sign fn -> grid_ok h ->
    In zone (g_zones h) -> z_faces h zone <> [] -> zl <> zr ->
    (forall f, In f (g_faces h) -> f_zone h f <> Some zl /\ f_zone h f <> Some zr) ->
    halves h fn (z_faces h zone) [] r ->
    exists v, split_zone_metric zone zl zr fn h = (Ok None, set_f_zone h v) /\
      (forall f, In f (z_faces h zone) -> v f = Some zr) /\
      (forall f, ~ In f (z_faces h zone) -> v f = f_zone h f).
  Proof.
    intros Ho h zone zl zr fn r Hm [Ht Hz] Hzin Hne Hzz Hfree Hh.
    assert (Hfs : forall f, In f (z_faces h zone) <-> In f (g_faces h) /\ f_zone h f = Some zone)
      by (intros f; apply (zo_faces h Hz); auto).
    destruct (metric_ok Ho h zone zl zr fn Hm Ht Hne) as (b & v & Eb & Hv & Hcase); auto.
    { apply (zo_faces_nd h Hz); auto. }
    { intros f Hf. apply Hfs. auto. }
    destruct Hcase as [(Hnd & _)|(_ & E & Hin)].
    - exfalso. apply (nondeg_halves Ho h fn _ [] r Hne Hh) in Hnd. auto.
    - exists v. auto.
  Qed.
End Main.
