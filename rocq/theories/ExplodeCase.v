(** The explosion of a decomposed grid: the pipeline of test.py:80-96. *)

From Coq Require Import ZArith Reals Ascii String Bool Lia Permutation List.
From Verif Require Import Py PyLemmas Heap HeapLemmas GridModel GridSpec DecompSpec DecompProofs AssignProofs SimpleDecomp DecompMain Mpi MpiSpec GridIO FileSpec StoreSpec LoadParse LoadPlace
  LoadEdges LoadMain LoadProps RoundTrip PlainProofs SamplesStore DriverSpec MergeProofs StrategyProofs StableFinal Geom Programs Explode ExplodeProofs.
From Verif Require Convert ConvertSpec ConvertMore ExplodeSpec.
Import ListNotations.
Open Scope list_scope.
Open Scope nat_scope.

Section ExplodeCase.
  Context {F : FloatOps}.

  Lemma chosen_all : forall A (c : nat -> bool) (l : list A) a, (forall i, i < length l -> c (a + i) = true) -> chosen c a l = l.
  Proof.
    intros A c l. induction l as [|x l IH]; intros a H; [reflexivity|]. unfold chosen. cbn [length seq combine filter fst].
    pose proof (H 0 ltac:(cbn; lia)) as H0. rewrite Nat.add_0_r in H0. rewrite H0. cbn [map snd]. f_equal.
    apply (IH (S a)). intros i Hi. specialize (H (S i) ltac:(cbn; lia)). rewrite Nat.add_succ_r in H. exact H.
  Qed.

  (** Every point of a stored zone is a corner of one of its faces. *)
  Lemma stored_used : forall h vars z zr, grid_ok h -> zone_lists_ok h -> nodes_merged h -> In z (g_zones h) -> describes h vars z zr ->
    ExplodeSpec.used_points zr = zr_pts zr /\ NoDup (map rnd (zr_pts zr)).
  Proof.
    intros h vars z zr [Tk Zk] Li Mg Hz (_ & _ & Ep & _ & Hc).
    assert (Sub : incl (z_nodes h z) (g_nodes h)).
    { intros n Hn. apply (proj1 (sublist_In _ _ _ _ n (proj1 (Li z Hz))) Hn). }
    assert (Nd : NoDup (map rnd (zr_pts zr))).
    { rewrite Ep, (pos_rnd h _ Mg Sub). destruct Mg as (M1 & _). 
      assert (Nz : NoDup (z_nodes h z)) by (apply (sublist_NoDup _ _ _ _ (proj1 (Li z Hz))); apply (t_nodes_nd _ Tk)).
      apply NoDup_map_in; [exact Nz|]. intros a b Ha Hb E. apply (NoDup_map_inj _ _ (n_rc h) (g_nodes h)); auto. }
    split; [|exact Nd]. rewrite used_chosen. apply chosen_all. intros i Hi. cbn [Nat.add]. apply at_corner_ok.
    rewrite Ep, map_length in Hi. destruct (nth_error (z_nodes h z) i) as [n|] eqn:En; [|apply nth_error_None in En; lia].
    pose proof (proj1 (sublist_In _ _ _ _ n (proj1 (Li z Hz))) (nth_error_In _ _ En)) as [Hng (f & Hf & Zf)].
    destruct (t_node_faces _ Tk n Hng) as [_ If]. pose proof (If f Hf) as Gf.
    assert (Hzf : In f (z_faces h z)) by (apply (zo_faces _ Zk z f Hz); auto).
    assert (Hnf : In n (f_nodes h f)) by (apply (t_nf _ Tk n f Hng Gf); exact Hf).
    apply In_nth_error in Hzf as (j & Hj).
    assert (Cj : exists t, nth_error (zr_conn zr) j = Some t /\ FileSpec.corners zr t = map Some (map (n_p h) (f_nodes h f))).
    { clear - Hc Hj. revert j Hj. induction Hc as [|u v us vs H Hc IH]; intros j Hj; [destruct j; discriminate Hj|].
      destruct j as [|j]; cbn in Hj; [injection Hj as ->; exists v; auto|apply (IH j Hj)]. }
    destruct Cj as ([[a b] c] & Ec & Hcs). exists j, a, b, c. split; [exact Ec|].
    assert (Pi : nth_error (zr_pts zr) i = Some (n_p h n)) by (rewrite Ep, nth_error_map, En; reflexivity).
    assert (K : In (Some (n_p h n)) (FileSpec.corners zr (a, b, c))) by (rewrite Hcs; apply in_map; apply in_map; exact Hnf).
    assert (Np : NoDup (zr_pts zr)) by (apply (NoDup_map_inv rnd); exact Nd).
    assert (U : forall x, nth_error (zr_pts zr) x = Some (n_p h n) -> i = x).
    { intros x Hx. apply (proj1 (NoDup_nth_error (zr_pts zr)) Np); [apply nth_error_Some; congruence|congruence]. }
    unfold FileSpec.corners in K. cbn [In] in K. destruct K as [K|[K|[K|[]]]]; apply U in K; auto.
  Qed.

  Variables (real : val -> R) (near : R -> val).

  (** The explosion of a stored grid. *)
  Theorem explode_stored : forall k h h0, faithful_numbers -> grid_ok h -> zone_lists_ok h -> numbered h -> nodes_merged h -> writable h ->
    (forall z, In z (g_zones h) -> z_faces h z <> []) ->
    exists t1 t2 h' evs1 evs2, store h = Ok t1 /\ explode_file real near k t1 h0 = (Ok t2, h') /\
      file_form [] (file_lines t1) evs1 /\ file_form [] (file_lines t2) evs2 /\
      title_in evs1 = Some (g_name h) /\ title_in evs2 = Some (g_name h) /\
      Forall2 (describes h (grid_vars h)) (g_zones h) (zones_of evs1) /\
      Forall (fun zr => ExplodeSpec.used_points zr = zr_pts zr) (zones_of evs1) /\
      Forall2 (fun zr zr' => ExplodeSpec.moved_zone real near (ExplodeSpec.way real k (zones_of evs1) zr) zr zr') (zones_of evs1) (zones_of evs2).
  Proof.
    intros k h h0 Hn Hok Hl Hb Hm Hw Hne. destruct (store_form h Hn Hok Hl Hb Hw) as (t1 & zs1 & Es & Hd & Hf).
    set (evs := ETitle (g_name h) :: map EZone zs1) in *.
    assert (Ez : zones_of evs = zs1) by apply zones_of_map.
    assert (Dz : forall zr, In zr zs1 -> exists z, In z (g_zones h) /\ describes h (grid_vars h) z zr).
    { clear - Hd. induction Hd as [|z zr zs zrs H Hd IH]; intros x Hx; [destruct Hx|]. destruct Hx as [<-|Hx].
      - exists z. split; [left; auto|auto].
      - destruct (IH x Hx) as (y & Y1 & Y2). exists y. split; [right; auto|auto]. }
    assert (Us : forall zr, In zr zs1 -> ExplodeSpec.used_points zr = zr_pts zr /\ NoDup (map rnd (zr_pts zr))).
    { intros zr Hzr. destruct (Dz zr Hzr) as (z & Hz & D). exact (stored_used h _ z zr Hok Hl Hm Hz D). }
    assert (Ndg : no_degenerate (zones_of evs)) by (rewrite Ez; exact (stored_nodegenerate h _ zs1 Hok Hm Hd)).
    assert (Nth : ~ three_share (zones_of evs)) by (rewrite Ez; exact (stored_manifold h _ zs1 Hok Hm Hd)).
    assert (Sep : forall zr, In zr (zones_of evs) -> NoDup (map rnd (zr_pts zr))) by (rewrite Ez; intros zr Hzr; apply (Us zr Hzr)).
    destruct (load_accepts_main false t1 h0 evs Hf Ndg Nth (or_intror Sep)) as (h1 & El).
    assert (Hti : title_in evs <> None).
    { unfold title_in, evs. cbn [fold_left]. clear.
      assert (G : forall (l : list zone_rec) t, fold_left (fun t e => match e with ETitle s => Some s | EZone _ => t end) (map EZone l) (Some t) = Some t).
      { induction l as [|x l IH]; intros t; [reflexivity|]. cbn. apply IH. }
      rewrite G. discriminate. }
    assert (Nz : zs1 <> []).
    { intros ->. inversion Hd as [Eg|]. destruct Hw as [Hw _]. destruct (g_faces h) as [|f fs] eqn:Ef; [apply Hw; reflexivity|].
      destruct Hok as [_ Zk]. destruct (zo_cover _ Zk f) as (z & Hz & _); [rewrite Ef; left; auto|]. rewrite <- Eg in Hz. destruct Hz. }
    destruct (explode_ok real near k t1 h0 h1 evs (grid_vars h) Hn El Hf Ndg Sep (or_introl Hti)) as (t2 & h' & evs2 & E2 & F2 & T2 & M2).
    - rewrite Ez. exact Nz.
    - rewrite Ez. intros zr Hzr. destruct (Dz zr Hzr) as (z & Hz & D1 & D2 & D3 & D4 & D5). split; [|exact D2].
      intros K. rewrite K in D5. inversion D5 as [Q|]. apply (Hne z Hz). symmetry. exact Q.
    - apply Hw.
    - destruct (load_result _ _ _ _ _ El Hf) as [_ Nm].
      assert (Ht1 : title_in evs = Some (g_name h)).
      { pose proof (title_after_map [] (g_name h) zs1) as T. fold evs in T. unfold title_after in T.
        destruct (title_in evs); [f_equal; exact T|contradiction]. }
      assert (Eg1 : g_name h1 = g_name h) by (rewrite Nm; unfold title_after; rewrite Ht1; reflexivity).
      exists t1, t2, h', evs, evs2. split; [exact Es|]. split; [exact E2|]. split; [exact Hf|]. split; [exact F2|].
      split; [exact Ht1|]. split; [rewrite <- Eg1; exact T2|]. split; [rewrite Ez; exact Hd|]. split; [|exact M2].
      rewrite Ez. apply Forall_forall. intros zr Hzr. apply (Us zr Hzr).
  Qed.

  Lemma h_plain : forall w, Forall (fun c => c = "l"%char \/ c = "r"%char) w -> plain_name (lit "h" ++ w).
  Proof.
    intros w Hw c Hc. rewrite Forall_forall in Hw. apply in_app_or in Hc as [Hc|Hc].
    - destruct Hc as [<-|[]]. repeat split; discriminate.
    - destruct (Hw c Hc) as [->| ->]; repeat split; discriminate.
  Qed.

  (** The pipeline of test.py:80-96. *)
  Theorem explode_case_ok : forall fns levels name k text h hl h2 evs, faithful_numbers -> order_ok -> Forall mesh_sign fns ->
    load true text (new_grid h) = (Ok tt, hl) -> file_form [] (file_lines text) evs -> no_degenerate (zones_of evs) -> faces_in (zones_of evs) <> 0 ->
    plain_name name -> decompose_hierarchical fns levels (Some name) [] hl = (Ok tt, h2) ->
    exists t1 t2 h' evs1 evs2, explode_case real near fns levels name k text h = (Ok (t1, t2), h') /\ store h2 = Ok t1 /\
      file_form [] (file_lines t1) evs1 /\ file_form [] (file_lines t2) evs2 /\
      title_in evs1 = Some name /\ title_in evs2 = Some name /\
      length (zones_of evs1) <= 2 ^ (levels - 1) /\ faces_in (zones_of evs1) = faces_in (zones_of evs) /\
      Forall (fun zr => ExplodeSpec.used_points zr = zr_pts zr) (zones_of evs1) /\
      Forall2 (fun zr zr' => ExplodeSpec.moved_zone real near (ExplodeSpec.way real k (zones_of evs1) zr) zr zr') (zones_of evs1) (zones_of evs2).
  Proof.
    intros fns levels name k text h hl h2 evs Hn Ho Hs El Hf Nd Nf Pn Ed.
    destruct (loaded_good _ _ _ _ El Hf Nd) as (Hok & Hl & Hnb & Hm).
    destruct (loaded_names _ _ _ _ _ El Hf) as (_ & Hv & _).
    destruct (load_result _ _ _ _ _ El Hf) as [Ld _]. pose proof (faces_count _ _ (ld_zones _ _ _ Ld)) as Ec.
    destruct (hier_keeps fns levels (Some name) [] hl h2 Ho Hs Hok Ed) as (K & N & HK & Ez & LN & _ & _ & Hnm & Hne).
    assert (K = []) as ->.
    { destruct K as [|x K']; [reflexivity|]. assert (In x (g_zones hl) /\ In (z_name hl x) []) as [_ []].
      apply (proj1 (sublist_In _ _ _ _ x HK)). left. auto. }
    cbn [app] in Ez. subst N.
    pose proof (hier_returns fns levels (Some name) [] hl h2 Ho Hs Hok Ed) as (M & Nm & Zk & Lk & _).
    assert (Ht2 : topo_ok h2) by (eapply topo_mesh; [exact M|apply Hok]).
    pose proof (numbered_mesh _ _ M Hnb) as Hn2. pose proof (merged_mesh _ _ M Hm) as Hm2.
    assert (Ef : g_faces h2 = g_faces hl) by (apply mesh_fields in M; decompose [and] M; assumption).
    assert (Efd : f_data h2 = f_data hl) by (apply mesh_fields in M; decompose [and] M; assumption).
    assert (Fne : exists f fs, g_faces hl = f :: fs) by (destruct (g_faces hl) as [|f fs]; [cbn in Ec; congruence|eauto]).
    destruct Fne as (f0 & fs0 & Ef0).
    assert (Hw : writable h2).
    { split; [rewrite Ef, Ef0; discriminate|]. split; [rewrite Nm; exact Pn|]. split.
      - intros z Hz. destruct (Hnm z Hz) as (w & -> & Hw). apply h_plain. exact Hw.
      - unfold grid_vars. rewrite Ef, Ef0, Efd. apply (Hv f0). rewrite Ef0. left. auto. }
    assert (Hz2 : forall z, In z (g_zones h2) -> z_faces h2 z <> []).
    { apply Hne. exists f0. split; [rewrite Ef0; left; auto|intros ? []]. }
    destruct (explode_stored k h2 h2 Hn (conj Ht2 Zk) Lk Hn2 Hm2 Hw Hz2) as (t1 & t2 & h' & evs1 & evs2 & Es & E2 & F1 & F2 & T1 & T2 & Hd & Us & Mv).
    exists t1, t2, h', evs1, evs2. split; [|split; [exact Es|split; [exact F1|split; [exact F2|]]]].
    - unfold explode_case. rewrite bind_modify. cbv beta. rewrite (bind_run _ _ _ _ _ _ _ El). rewrite (bind_run _ _ _ _ _ _ _ Ed).
      rewrite bind_gets. cbv beta. rewrite Es, bind_lift_ok. cbv beta. rewrite (bind_run _ _ _ _ _ _ _ E2). reflexivity.
    - rewrite Nm in T1, T2. split; [exact T1|]. split; [exact T2|]. split; [|split; [|split; [exact Us|exact Mv]]].
      + replace (length (zones_of evs1)) with (length (g_zones h2)); [exact LN|]. clear - Hd. induction Hd; cbn; auto.
      + rewrite <- Ec, <- Ef. rewrite (Permutation_length (NoDup_Permutation (t_faces_nd _ Ht2) (zones_faces_nd h2 (conj Ht2 Zk))
          (fun f => iff_sym (zones_faces_in h2 f (conj Ht2 Zk))))).
        unfold faces_in. clear - Hd. induction Hd as [|z zr zs zrs H Hd IH]; [reflexivity|]. cbn [flat_map map list_sum fold_right].
        rewrite app_length, <- IH. f_equal. destruct H as (_ & _ & _ & _ & H). clear - H. induction H; cbn; auto.
  Qed.
End ExplodeCase.
