(** The statements about Grid.load in the form used by the property theorems. *)

From Coq Require Import ZArith NArith Ascii String Bool Lia List Permutation.
From Verif Require Import Py PyLemmas Heap HeapLemmas GridModel GridSpec DecompProofs GridIO FileSpec
  Frames LoadParse LoadPlace LoadEdges LoadMain LoadFresh Samples SamplesIO.
Import ListNotations.
Open Scope list_scope.
Open Scope nat_scope.

Section Props.
  Context {F : FloatOps}.
  #[local] Strategy expand [load complex_link link_face_edges for_each].

  Lemma load_incidence_main : forall merge text h h' evs,
    load merge text h = (Ok tt, h') -> file_form [] (file_lines text) evs ->
    no_degenerate (zones_of evs) ->
    merge = true \/ (forall zr, In zr (zones_of evs) -> NoDup (map rnd (zr_pts zr))) ->
    topo_ok h' /\ zones_ok h'.
  Proof.
    intros merge text h h' evs E Hf Nd Sp. split.
    - exact (load_incidence _ _ _ _ _ E Hf Sp Nd).
    - destruct (load_result _ _ _ _ _ E Hf) as [L _]. apply (ld_zok _ _ _ L).
  Qed.

  Lemma load_contents_main : forall merge text h h' evs,
    load merge text h = (Ok tt, h') -> file_form [] (file_lines text) evs ->
    holds_zones (zones_of evs) h' /\ zones_ok h' /\ numbered_in_order h'.
  Proof. intros merge text h h' evs E Hf. destruct (load_result _ _ _ _ _ E Hf) as [[] _]. auto. Qed.

  Lemma complex_link_raise : forall f a b h e h1, complex_link f a b h = (Raise e, h1) -> e = EException.
  Proof.
    intros f a b h e h1 E. destruct (find_edge h a b) as [x|] eqn:Ee.
    - destruct (Nat.eq_dec (length (e_faces h x)) 2) as [L|L].
      + rewrite (complex_link_full _ _ _ _ _ Ee L) in E. congruence.
      + destruct (complex_link_found f a b h x Ee L) as (h2 & E2 & _). congruence.
    - destruct (complex_link_new f a b h Ee) as (h2 & E2 & _). congruence.
  Qed.

  Lemma tasks_raise : forall ts h e h1, for_each ts run_task h = (Raise e, h1) -> e = EException.
  Proof.
    induction ts as [|[[f a] b] ts IH]; intros h e h1 E; [discriminate|].
    cbn [for_each] in E. unfold bind in E. destruct (run_task (f, a, b) h) as [[[]|x] h2] eqn:E1.
    - exact (IH _ _ _ E).
    - injection E as <- _. exact (complex_link_raise _ _ _ _ _ _ E1).
  Qed.

  Lemma load_rejects_main : forall text h evs,
    file_form [] (file_lines text) evs -> three_share (zones_of evs) ->
    fst (load true text h) = Raise EException.
  Proof.
    intros text h evs Hf T. destruct (load_rejects text h evs Hf T) as (e & E). rewrite E. f_equal.
    destruct (load_events true text h evs Hf) as (h1 & P & N & _ & El). rewrite El in E.
    unfold finish in E. rewrite bind_gets in E.
    rewrite (bind_eq _ _ (for_each (g_faces h1) link_face_edges) (for_each (all_tasks h1) run_task)
       (fun _ => link_nodes_and_edges_to_zones) (fun _ => link_nodes_and_edges_to_zones) h1) in E; [| |auto].
    2:{ apply link_faces_tasks. intros f K. apply (placed_nodes3 _ _ _ P f K). }
    unfold bind in E. destruct (for_each (all_tasks h1) run_task h1) as [[[]|x] h2] eqn:Et.
    - exfalso. destruct (edges_any h1 h2) as [U Er].
      { exact (placed_nodes3 _ _ _ P). }
      { destruct P as (reps & Hr & Hi & Hfr & _). apply (fr_ge _ Hfr). }
      { destruct P as (reps & Hr & Hi & Hfr & _). apply (nr_edges _ _ _ _ Hr). }
      { rewrite <- Et. apply link_faces_tasks. intros f K. apply (placed_nodes3 _ _ _ P f K). }
      destruct (finish_tail true _ h1 h2 P U Er) as (h3 & K & _). rewrite K in E. discriminate.
    - cbn in E. injection E as <-. exact (tasks_raise _ _ _ _ Et).
  Qed.

  Lemma load_two_main : forall merge text h h', load merge text h = (Ok tt, h') ->
    forall e, In e (g_edges h') -> length (e_faces h' e) <= 2.
  Proof.
    intros merge text h h' E. destruct (load_form _ _ _ _ E) as (evs & Hf).
    destruct (load_result _ _ _ _ _ E Hf) as [[] _]. auto.
  Qed.

  Lemma load_accepts_main : forall merge text h evs,
    file_form [] (file_lines text) evs ->
    no_degenerate (zones_of evs) -> ~ three_share (zones_of evs) ->
    merge = true \/ (forall zr, In zr (zones_of evs) -> NoDup (map rnd (zr_pts zr))) ->
    exists h', load merge text h = (Ok tt, h').
  Proof. intros merge text h evs Hf Nd T Sp. exact (load_accepts merge text h evs Hf Sp Nd T). Qed.

  Lemma load_nodes_main : forall merge text h h' evs,
    load merge text h = (Ok tt, h') -> file_form [] (file_lines text) evs ->
    map (n_p h') (g_nodes h') = (if merge then firsts (all_pts (zones_of evs)) else all_pts (zones_of evs)) /\
    (forall n, In n (g_nodes h') -> n_rc h' n = rnd (n_p h' n)) /\
    (merge = true -> NoDup (map (n_rc h') (g_nodes h'))) /\
    (forall i n, nth_error (g_nodes h') i = Some n -> n_glo h' n = Z.of_nat i).
  Proof.
    intros merge text h h' evs E Hf. destruct (load_result _ _ _ _ _ E Hf) as [[] _].
    split; [auto|]. split; [auto|]. split; [auto|]. apply ld_num.
  Qed.

  Lemma load_representative_main : forall text h h' evs j p,
    load true text h = (Ok tt, h') -> file_form [] (file_lines text) evs ->
    nth_error (all_pts (zones_of evs)) j = Some p ->
    exists n, In n (g_nodes h') /\ n_rc h' n = rnd p /\
      (forall m, In m (g_nodes h') -> n_rc h' m = rnd p -> m = n) /\
      exists i q, i <= j /\ nth_error (all_pts (zones_of evs)) i = Some q /\ n_p h' n = q /\ rnd q = rnd p /\
        forall k q', k < i -> nth_error (all_pts (zones_of evs)) k = Some q' -> rnd q' <> rnd p.
  Proof.
    intros text h h' evs j p E Hf Hj. destruct (load_result _ _ _ _ _ E Hf) as [[] _].
    specialize (ld_merge eq_refl). set (pts := all_pts (zones_of evs)) in *.
    assert (Hr : In (rnd p) (map rnd (firsts pts))).
    { apply firsts_rnd. apply in_map. eapply nth_error_In; eauto. }
    apply in_map_iff in Hr as (q & Eq & Hq). pose proof Hq as Hq'. rewrite <- ld_pts in Hq.
    apply in_map_iff in Hq as (n & En & Hn). exists n. split; [auto|].
    assert (Er : n_rc h' n = rnd p) by (rewrite ld_rc, En by auto; auto).
    split; [auto|]. split.
    { intros m Hm Em. apply (NoDup_map_inj _ _ (n_rc h') (g_nodes h')); auto. congruence. }
    apply firsts_in in Hq' as (a & b & Ea & Hbefore). exists (length a), q.
    assert (Hb : forall k q', k < length a -> nth_error pts k = Some q' -> rnd q' <> rnd p).
    { intros k q' Hk Hkq K. apply Hbefore. rewrite Eq, <- K. apply in_map.
      rewrite Ea, nth_error_app1 in Hkq by auto. eapply nth_error_In; eauto. }
    assert (length a <= j).
    { destruct (Nat.le_gt_cases (length a) j); auto. exfalso. apply (Hb j p); auto. }
    split; [auto|]. split.
    { rewrite Ea, nth_error_app2, Nat.sub_diag by auto. reflexivity. }
    auto.
  Qed.

  Lemma load_form_main : forall merge text h h', load merge text h = (Ok tt, h') ->
    exists evs, file_form [] (file_lines text) evs /\ forall zr, In zr (zones_of evs) -> zone_rec_ok zr.
  Proof.
    intros merge text h h' E. destruct (load_form _ _ _ _ E) as (evs & Hf). exists evs.
    split; auto. apply (file_form_ok _ _ _ Hf).
  Qed.

  Lemma load_title_main : forall merge text h h' evs t,
    load merge text h = (Ok tt, h') -> file_form [] (file_lines text) evs -> title_in evs = Some t ->
    g_name h' = t /\ g_name (snd (load merge text (new_grid h))) = t.
  Proof.
    intros merge text h h' evs t E Hf Ht. destruct (load_result _ _ _ _ _ E Hf) as [_ N].
    unfold title_after in N. rewrite Ht in N. split; [auto|].
    destruct (load_fresh merge text h) as [E1 _]. rewrite E in E1. cbn [fst] in E1.
    destruct (load merge text (new_grid h)) as [r h2] eqn:E2. cbn [fst snd] in *. subst r.
    destruct (load_result _ _ _ _ _ E2 Hf) as [_ N2]. unfold title_after in N2. rewrite Ht in N2. auto.
  Qed.

  Lemma load_lists_main : forall merge text h h', load merge text h = (Ok tt, h') -> zone_lists_ok h'.
  Proof.
    intros merge text h h' E. destruct (load_form _ _ _ _ E) as (evs & Hf).
    destruct (load_result _ _ _ _ _ E Hf) as [[] _]. auto.
  Qed.
End Props.

Lemma ok_pair : forall {A} (m : res unit * A), fst m = Ok tt -> m = (Ok tt, snd m).
Proof. intros A [r a] E. cbn in *. congruence. Qed.

Lemma zero_entry_main : exists (F : FloatOps) text h h',
  load true text h = (Ok tt, h') /\
  exists line, In line (file_lines text) /\ line = lit "1 2 0" ++ [nl] /\
    map (n_p h') (flat_map (f_nodes h') (g_faces h')) = map (n_p h') (g_nodes h').
Proof.
  exists ZOps, zero_entry, empty_heap, (snd (load true zero_entry empty_heap)). split.
  - apply ok_pair. vm_compute. reflexivity.
  - exists (lit "1 2 0" ++ [nl]). split; [vm_compute; repeat (try (left; reflexivity); right)|].
    split; [reflexivity|]. vm_compute. reflexivity.
Qed.

Lemma load_keeps_name_main : exists (F : FloatOps) merge text h,
  fst (load merge text h) = Ok tt /\ fst (load merge text (new_grid h)) = Ok tt /\
  g_name (snd (load merge text h)) <> g_name (snd (load merge text (new_grid h))) /\
  g_nborder (snd (load merge text h)) <> g_nborder (snd (load merge text (new_grid h))).
Proof.
  exists ZOps, true, no_title, (set_g_nborder (set_g_name empty_heap (lit "old")) 3).
  split; [vm_compute; reflexivity|]. split; [vm_compute; reflexivity|].
  split; vm_compute; discriminate.
Qed.
