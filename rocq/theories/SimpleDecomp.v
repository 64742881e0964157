(** Mono, random and linear decompositions. *)

From Coq Require Import ZArith NArith Ascii String Bool Lia List Permutation.
From Verif Require Import Py PyLemmas Heap HeapLemmas GridModel GridSpec DecompProofs AssignProofs.
Import ListNotations.
Open Scope list_scope.

Section Simple.
  Context {F : FloatOps}.

  Lemma rename_ok : forall nm h, grid_ok h ->
    exists h', rename nm h = (Ok tt, h') /\ grid_ok h' /\ mesh h' = mesh h /\
      next_z h' = next_z h /\ g_zones h' = g_zones h /\ z_name h' = z_name h /\
      z_faces h' = z_faces h /\ z_fixed h' = z_fixed h /\ f_zone h' = f_zone h /\
      g_name h' = match nm with Some s => s | None => g_name h end.
  Proof.
    intros [s|] h [Ht Hz]; cbn [rename].
    - eexists. split; [reflexivity|]. split; [|repeat split; reflexivity].
      split.
      + eapply topo_mesh; [|eauto]. reflexivity.
      + destruct Hz. constructor; auto.
    - exists h. split; [reflexivity|]. split; [split; auto|]. repeat split; auto.
  Qed.

  Lemma finish' : forall h h3 nm, topo_ok h -> mesh h3 = mesh h ->
    g_name h3 = match nm with Some s => s | None => g_name h end -> zones_ok h3 ->
    exists h4, post_decompose h3 = (Ok tt, h4) /\ decomposed h h4 nm /\
      g_zones h4 = g_zones h3 /\ z_faces h4 = z_faces h3 /\ z_name h4 = z_name h3 /\
      z_fixed h4 = z_fixed h3 /\ f_zone h4 = f_zone h3.
  Proof.
    intros h h3 nm Ht Em En Hz.
    destruct (post_ok h3) as (h4 & E4 & F4 & Z4 & L4 & I4).
    { eapply topo_mesh; [|eauto]. congruence. }
    { auto. }
    exists h4. split; [auto|].
    pose proof (frameL_fields _ _ F4) as (_ & _ & Efz & Ez & _ & _ & _ & Em4).
    split.
    { split; [congruence|]. split; [|auto].
      assert (g_name h4 = g_name h3) by (unfold frameL in F4; congruence). congruence. }
    unfold frameL in F4. repeat split; congruence.
  Qed.

  Lemma finish : forall h h2 h3 nm, topo_ok h -> mesh h2 = mesh h ->
    g_name h2 = match nm with Some s => s | None => g_name h end ->
    frameZ h3 = frameZ h2 -> zones_ok h3 ->
    exists h4, post_decompose h3 = (Ok tt, h4) /\ decomposed h h4 nm /\
      g_zones h4 = g_zones h3 /\ z_faces h4 = z_faces h3 /\ z_name h4 = z_name h3 /\
      z_fixed h4 = z_fixed h3 /\ f_zone h4 = f_zone h3.
  Proof.
    intros h h2 h3 nm Ht Em En Hf Hz.
    pose proof (frameZ_fields _ _ Hf) as (Em3 & Ez3 & Ef3 & Enz3 & Efx3 & Enm3 & Egn3 & Emk3).
    apply finish'; auto; congruence.
  Qed.

  (* ---------------------------------------------------------------- *)
  (** ** mono *)

  Lemma mono_ok : forall nm h, grid_ok h ->
    exists h' z, decompose_mono nm h = (Ok tt, h') /\ decomposed h h' nm /\
      g_zones h' = [z] /\ z_name h' z = lit "mono" /\ z_faces h' z = g_faces h /\
      z_edges h' z = g_edges h /\
      sublist_of (fun n => n_faces h n <> []) (g_nodes h) (z_nodes h' z).
  Proof.
    intros nm h Hg. destruct (rename_ok nm h Hg) as (h0 & E0 & G0 & M0 & N0 & _ & _ & _ & _ & _ & Nm0).
    pose proof (mesh_fields _ _ M0) as (_ & _ & _ & _ & Enf & _ & _ & _ & Eef & _ & _ & _ & _
      & Egn & Ege & Egf & _).
    unfold decompose_mono. rewrite (bind_run _ _ _ _ _ _ _ E0). rewrite bind_modify.
    destruct (prologue_ok [] 0 h0 G0) as (h1 & h2 & E1 & E2 & Em2 & En2 & R2 & _).
    assert (h2 = h1) by (unfold create_zones in E2; cbn in E2; inv E2; auto). subst h2.
    rewrite (bind_run _ _ _ _ _ _ _ E1).
    assert (Enz1 : next_z h1 = next_z h0).
    { destruct (unlink_ok (set_g_zones h0 [])) as (h1' & E1' & F1' & _).
      - apply (t_faces_nd h0); apply G0.
      - intros f Hf. destruct (zo_cover h0 (proj2 G0) f Hf) as (z & _ & Ez). cbn. rewrite Ez. discriminate.
      - rewrite E1' in E1. inv E1. unfold frameU in F1'. cbn in F1'. congruence. }
    unfold new_zone at 1. unfold bind at 1. cbn zeta beta.
    set (z := next_z h1).
    match goal with |- context [append_zone z ;;; _] => idtac end.
    match goal with |- exists h' z0, (append_zone z ;;; ?k) ?hh = _ /\ _ => set (h2 := hh) end.
    unfold append_zone at 1. rewrite bind_modify. rewrite bind_gets.
    set (h3 := set_g_zones h2 (g_zones h2 ++ [z])).
    assert (M3 : mesh h3 = mesh h) by (rewrite <- M0, <- Em2; reflexivity).
    assert (Ht3 : topo_ok h3) by (eapply topo_mesh; [eauto|]; apply Hg).
    assert (R3 : ready h3 [z]).
    { destruct R2 as (_ & Rg & _ & _ & Rf). cbn in Rg.
      split; [constructor; [intros []|constructor]|]. split.
      { cbn. rewrite Rg. reflexivity. }
      split; [intros z' [<-|[]]; cbn; lia|]. split.
      { intros z' [<-|[]]. cbn. apply upd_same. }
      intros f z' Hf Hz'. cbn in Hf, Hz'.
      destruct (Rf f z' Hf Hz') as [_ Hin].
      assert (Hlt : z' < next_z h1).
      { destruct (unlink_ok (set_g_zones h0 [])) as (h1' & E1' & F1' & _ & Z1').
        - apply (t_faces_nd h0); apply G0.
        - intros g Hgf. destruct (zo_cover h0 (proj2 G0) g Hgf) as (zz & _ & Ez). cbn. rewrite Ez. discriminate.
        - rewrite E1' in E1. inv E1.
          assert (Hf0 : In f (g_faces h0)).
          { apply mesh_fields in Em2. decompose [and] Em2. congruence. }
          destruct (zo_cover h0 (proj2 G0) f Hf0) as (z0 & Hz0 & Ez0).
          rewrite (Z1' f z0 Hf0 Ez0) in Hz'. destruct (z_fixed _ z0); [|discriminate]. inv Hz'.
          rewrite Enz1. apply (zo_alloc h0); auto. apply G0. }
      split.
      - intros [<-|[]]. unfold z in Hlt. lia.
      - cbn. rewrite upd_other by (unfold z; lia). auto. }
    assert (Egf3 : g_faces h3 = g_faces h) by (apply mesh_fields in M3; decompose [and] M3; congruence).
    destruct (assign_all_ok h3 [z] (map (fun f => (z, f)) (g_faces h3)) Ht3 R3)
      as (h4 & E4 & F4 & Z4 & Fz4 & _).
    { intros z' f Hi. apply in_map_iff in Hi as (x & Ex & _). inv Ex. simpl; auto. }
    { rewrite map_map. cbn. rewrite map_id. apply Permutation_refl. }
    assert (E4' : for_each (g_faces h3) (fun f => zone_add_face z f) h3 = (Ok tt, h4)).
    { rewrite assign_const. auto. }
    rewrite (bind_run _ _ _ _ _ _ _ E4').
    destruct (finish h h3 h4 nm) as (h5 & E5 & D5 & Gz5 & Zf5 & Zn5 & _ & Efz5); auto.
    { apply Hg. }
    { rewrite <- Nm0, <- En2. reflexivity. }
    pose proof (frameZ_fields _ _ F4) as (_ & Gz4 & _ & _ & _ & Zn4 & _ & _).
    assert (Gz : g_zones h5 = [z]) by (rewrite Gz5, Gz4; apply R3).
    exists h5, z. split; [auto|]. split; [auto|]. split; [auto|].
    split. { rewrite Zn5, Zn4. cbn. apply upd_same. }
    split.
    { rewrite Zf5, (Fz4 z) by (simpl; auto). unfold faces_for. rewrite filter_all.
      - rewrite map_map. cbn. rewrite map_id. auto.
      - intros x Hx. apply in_map_iff in Hx as (y & <- & _). apply Nat.eqb_refl. }
    destruct D5 as (Md & _ & Zd & Ld & _).
    pose proof (mesh_fields _ _ Md) as (_ & _ & _ & _ & Enf' & _ & _ & _ & Eef' & _ & _ & _ & _
      & Egn' & Ege' & Egf' & _).
    destruct (Ld z) as [Ln Le]; [rewrite Gz; simpl; auto|].
    rewrite Egn', Enf' in Ln. rewrite Ege', Eef' in Le.
    assert (Hall : forall f, In f (g_faces h) -> f_zone h5 f = Some z).
    { intros f Hf. rewrite <- Egf' in Hf. destruct (zo_cover h5 Zd f Hf) as (z' & Hz' & Ez').
      rewrite Gz in Hz'. destruct Hz' as [<-|[]]. auto. }
    destruct Hg as [Ht Hz]. split.
    - eapply sublist_unique; [exact Le|].
      rewrite <- (filter_all _ (fun _ => true) (g_edges h)) at 2 by auto.
      apply sublist_filter. intros e He. split; auto. intros _.
      destruct (t_edge_faces h Ht e He) as (Hl & _ & Hi).
      destruct (e_faces h e) as [|f fs] eqn:Ef; [simpl in Hl; lia|].
      exists f. split; [simpl; auto|]. apply Hall, Hi. simpl; auto.
    - eapply sublist_ext; [exact Ln|]. intros n Hn. cbn. split.
      + intros (f & Hf & _) Hc. rewrite Hc in Hf. contradiction.
      + intros Hne. destruct (t_node_faces h Ht n Hn) as [_ Hi].
        destruct (n_faces h n) as [|f fs] eqn:Ef; [congruence|].
        exists f. split; [simpl; auto|]. apply Hall, Hi. simpl; auto.
  Qed.

  (* ---------------------------------------------------------------- *)
  (** ** random *)

  Definition random_pairs (rand : nat -> nat) (T : list nat) (count k : nat) (fs : list nat) :=
    map (fun jf => (nth (rand (fst jf) mod count) T 0, snd jf)) (combine (seq k (length fs)) fs).

  Lemma random_faces_assign : forall rand T count fs k h, count <> 0 -> length T = count ->
    g_zones h = T ->
    random_faces rand count k fs h = assign (random_pairs rand T count k fs) h.
  Proof.
    intros rand T count fs. induction fs as [|f fs IH]; intros k h Hc HT Hz; [reflexivity|].
    cbn [random_faces]. destruct (Nat.eqb_spec count 0) as [|_]; [contradiction|].
    rewrite bind_gets, Hz.
    assert (Hlt : rand k mod count < length T) by (rewrite HT; apply Nat.mod_upper_bound; auto).
    rewrite (py_get_nat _ T _ (nth (rand k mod count) T 0)) by (apply nth_error_nth'; auto).
    rewrite bind_lift_ok. unfold random_pairs. cbn [length seq combine map]. unfold assign.
    cbn [for_each fst snd]. unfold bind.
    destruct (zone_add_face (nth (rand k mod count) T 0) f h) as [[[]|e] h1] eqn:E; auto.
    rewrite IH; auto. apply zone_add_face_frame in E.
    apply frameZ_fields in E as (_ & E & _). congruence.
  Qed.

  Lemma random_pairs_snd : forall rand T count fs k, map snd (random_pairs rand T count k fs) = fs.
  Proof.
    intros rand T count fs. induction fs as [|f fs IH]; intros k; auto.
    unfold random_pairs in *. cbn [length seq combine map snd]. f_equal. apply IH.
  Qed.

  Lemma random_pairs_fst : forall rand T count fs k z f, count <> 0 -> length T = count ->
    In (z, f) (random_pairs rand T count k fs) -> In z T.
  Proof.
    intros rand T count fs k z f Hc HT Hi. apply in_map_iff in Hi as ([j g] & E & _).
    inv E. apply nth_In. apply Nat.mod_upper_bound. auto.
  Qed.

  Lemma random_pairs_nth : forall rand T count fs k j f,
    nth_error fs j = Some f ->
    In (nth (rand (k + j) mod count) T 0, f) (random_pairs rand T count k fs).
  Proof.
    intros rand T count fs. induction fs as [|g fs IH]; intros k [|j] f H; simpl in H; try discriminate.
    - inv H. left. cbn. rewrite Nat.add_0_r. auto.
    - right. replace (k + S j) with (S k + j) by lia. apply IH. auto.
  Qed.

  Lemma random_ok : forall rand count nm h, grid_ok h -> count <> 0 ->
    exists h', decompose_random rand count nm h = (Ok tt, h') /\ decomposed h h' nm /\
      length (g_zones h') = count /\
      (forall i z, nth_error (g_zones h') i = Some z -> z_name h' z = lit "random " ++ nat_str i) /\
      (forall k f, nth_error (g_faces h) k = Some f ->
         f_zone h' f = nth_error (g_zones h') (rand k mod count)).
  Proof.
    intros rand count nm h Hg Hc.
    destruct (rename_ok nm h Hg) as (h0 & E0 & G0 & M0 & N0 & _ & _ & _ & _ & _ & Nm0).
    unfold decompose_random. rewrite (bind_run _ _ _ _ _ _ _ E0). rewrite bind_modify.
    destruct (prologue_ok (lit "random ") count h0 G0) as (h1 & h2 & E1 & E2 & Em2 & En2 & R2 & Nn2).
    rewrite (bind_run _ _ _ _ _ _ _ E1), (bind_run _ _ _ _ _ _ _ E2), bind_gets.
    set (T := seq (next_z h0) count) in *.
    assert (HT : length T = count) by apply seq_length.
    assert (M2 : mesh h2 = mesh h) by congruence.
    assert (Ht2 : topo_ok h2) by (eapply topo_mesh; [eauto|]; apply Hg).
    assert (Egf : g_faces h2 = g_faces h) by (apply mesh_fields in M2; decompose [and] M2; congruence).
    destruct (assign_all_ok h2 T (random_pairs rand T count 0 (g_faces h2)) Ht2 R2)
      as (h3 & E3 & F3 & Z3 & Fz3 & Pz3).
    { intros z f. apply random_pairs_fst; auto. }
    { rewrite random_pairs_snd. auto. }
    rewrite <- (random_faces_assign rand T count (g_faces h2) 0 h2) in E3; auto; [|apply R2].
    rewrite (bind_run _ _ _ _ _ _ _ E3).
    destruct (finish h h2 h3 nm) as (h4 & E4 & D4 & Gz4 & Zf4 & Zn4 & _ & Efz4); auto.
    { apply Hg. }
    { congruence. }
    pose proof (frameZ_fields _ _ F3) as (_ & Gz3 & _ & _ & _ & Zn3 & _ & _).
    assert (Gz : g_zones h4 = T) by (rewrite Gz4, Gz3; apply R2).
    exists h4. split; [auto|]. split; [auto|]. split; [rewrite Gz; auto|]. split.
    - intros i z Hi. rewrite Gz in Hi. rewrite Zn4, Zn3.
      assert (i < count) by (rewrite <- HT; apply nth_error_Some; congruence).
      unfold T in Hi. rewrite nth_error_nth' with (d := 0) in Hi by (rewrite seq_length; auto).
      rewrite seq_nth in Hi by auto. injection Hi as <-. auto.
    - intros k f Hk. rewrite Efz4, Gz.
      rewrite (nth_error_nth' T 0) by (rewrite HT; apply Nat.mod_upper_bound; auto).
      apply Pz3. rewrite Egf. apply (random_pairs_nth rand T count (g_faces h) 0 k f Hk).
  Qed.

  (* ---------------------------------------------------------------- *)
  (** ** linear *)

  Fixpoint linear_pairs (fcpz fcrm i cur : nat) (zs fs : list nat) : list (nat * nat) :=
    match zs with
    | [] => []
    | z :: r =>
        let k := if i <? fcrm then S fcpz else fcpz in
        map (fun f => (z, f)) (firstn k (skipn cur fs)) ++ linear_pairs fcpz fcrm (S i) (cur + k) r fs
    end.

  Fixpoint linear_total (fcpz fcrm i : nat) (zs : list nat) : nat :=
    match zs with
    | [] => 0
    | _ :: r => (if i <? fcrm then S fcpz else fcpz) + linear_total fcpz fcrm (S i) r
    end.

  Lemma linear_inner : forall z fs k cur h, g_faces h = fs -> cur + k <= length fs ->
    for_each (seq cur k) (fun j =>
      fs <- gets g_faces ;; f <- lift (py_get fs (Z.of_nat j)) ;; zone_add_face z f) h
    = assign (map (fun f => (z, f)) (firstn k (skipn cur fs))) h.
  Proof.
    intros z fs k. induction k as [|k IH]; intros cur h Hf Hl; [reflexivity|].
    cbn [seq for_each].
    assert (exists f, nth_error fs cur = Some f) as (f & Ef).
    { destruct (nth_error fs cur) eqn:E; eauto. apply nth_error_None in E. lia. }
    assert (Esk : skipn cur fs = f :: skipn (S cur) fs).
    { clear -Ef. revert cur Ef. induction fs as [|a fs IH]; intros [|cur] H; simpl in *; try discriminate.
      - inv H. auto.
      - apply IH. auto. }
    rewrite Esk. cbn [firstn map]. unfold assign. cbn [for_each fst snd].
    rewrite bind_assoc, bind_gets, bind_assoc, Hf, (py_get_nat _ _ _ _ Ef), bind_lift_ok.
    destruct (zone_add_face z f h) as [[[]|e] h1] eqn:E.
    2:{ rewrite !(bind_raise _ _ _ _ _ _ _ E). auto. }
    rewrite !(bind_run _ _ _ _ _ _ _ E).
    apply IH; [|lia]. apply zone_add_face_frame in E.
    apply frameZ_fields in E as (_ & _ & E & _). congruence.
  Qed.

  Lemma linear_zones_assign : forall fcpz fcrm fs zs i cur h, g_faces h = fs ->
    cur + linear_total fcpz fcrm i zs <= length fs ->
    linear_zones fcpz fcrm i cur zs h =
    bind (assign (linear_pairs fcpz fcrm i cur zs fs))
      (fun _ => ret (cur + linear_total fcpz fcrm i zs)) h.
  Proof.
    intros fcpz fcrm fs zs. induction zs as [|z zs IH]; intros i cur h Hf Hl.
    - cbn. rewrite Nat.add_0_r. reflexivity.
    - cbn [linear_zones linear_pairs linear_total] in *.
      set (k := if i <? fcrm then S fcpz else fcpz) in *.
      unfold bind at 1. rewrite (linear_inner z fs k cur h Hf) by lia.
      unfold bind at 1. rewrite assign_app. unfold bind at 1.
      destruct (assign (map (fun f => (z, f)) (firstn k (skipn cur fs))) h) as [[[]|e] h1] eqn:E; auto.
      rewrite IH; [|  | lia].
      + unfold bind. rewrite Nat.add_assoc. reflexivity.
      + rewrite <- Hf. clear -E.
        assert (G : forall ps h r h1, assign ps h = (r, h1) -> g_faces h1 = g_faces h).
        { induction ps as [|[a b] ps IHp]; intros h' r h1' H'.
          - cbn in H'. inv H'. auto.
          - unfold assign in *. cbn [for_each fst snd] in H'. unfold bind in H'.
            destruct (zone_add_face a b h') as [[[]|e] h2] eqn:E2.
            + apply IHp in H'. apply zone_add_face_frame in E2.
              apply frameZ_fields in E2 as (_ & _ & E2 & _). congruence.
            + inv H'. apply zone_add_face_frame in E2.
              apply frameZ_fields in E2 as (_ & _ & E2 & _). congruence. }
        eapply G; eauto.
  Qed.

  Lemma linear_total_val : forall fcpz fcrm zs i,
    linear_total fcpz fcrm i zs = fcpz * length zs + (Nat.min fcrm (i + length zs) - Nat.min fcrm i).
  Proof.
    intros fcpz fcrm zs. induction zs as [|z zs IH]; intros i; cbn [linear_total length].
    - rewrite Nat.add_0_r. lia.
    - rewrite IH. destruct (Nat.ltb_spec i fcrm); nia.
  Qed.

  Lemma firstn_plus : forall A (k m : nat) (l : list A),
    firstn (k + m) l = firstn k l ++ firstn m (skipn k l).
  Proof.
    intros A k m. induction k as [|k IH]; intros l; [reflexivity|].
    destruct l as [|a l]; cbn; [rewrite firstn_nil; auto|]. rewrite IH. auto.
  Qed.

  Lemma skipn_skipn' : forall A (k m : nat) (l : list A), skipn k (skipn m l) = skipn (k + m) l.
  Proof.
    intros A k m. induction m as [|m IH]; intros l.
    - rewrite Nat.add_0_r. auto.
    - rewrite Nat.add_succ_r. destruct l as [|a l]; cbn; [rewrite skipn_nil; auto|]. apply IH.
  Qed.

  Lemma linear_pairs_snd : forall fcpz fcrm fs zs i cur,
    map snd (linear_pairs fcpz fcrm i cur zs fs) = firstn (linear_total fcpz fcrm i zs) (skipn cur fs).
  Proof.
    intros fcpz fcrm fs zs. induction zs as [|z zs IH]; intros i cur; [reflexivity|].
    cbn [linear_pairs linear_total]. set (k := if i <? fcrm then S fcpz else fcpz).
    rewrite map_app, map_map. cbn [snd]. rewrite map_id, IH.
    rewrite firstn_plus, skipn_skipn', (Nat.add_comm k cur). auto.
  Qed.

  Lemma linear_pairs_fst : forall fcpz fcrm fs zs i cur z f,
    In (z, f) (linear_pairs fcpz fcrm i cur zs fs) -> In z zs.
  Proof.
    intros fcpz fcrm fs zs. induction zs as [|a zs IH]; intros i cur z f H; [destruct H|].
    cbn [linear_pairs] in H. apply in_app_or in H as [H|H].
    - apply in_map_iff in H as (x & E & _). inv E. left; auto.
    - right. eapply IH; eauto.
  Qed.

  Lemma faces_for_const_same : forall z l, faces_for z (map (fun f => (z, f)) l) = l.
  Proof.
    intros z l. unfold faces_for. rewrite filter_all.
    - rewrite map_map. cbn. apply map_id.
    - intros x Hx. apply in_map_iff in Hx as (y & <- & _). apply Nat.eqb_refl.
  Qed.

  Lemma faces_for_const_other : forall z z' l, z <> z' -> faces_for z' (map (fun f => (z, f)) l) = [].
  Proof.
    intros z z' l H. unfold faces_for. rewrite filter_nil_none; auto.
    intros x Hx. apply in_map_iff in Hx as (y & <- & _). apply Nat.eqb_neq. auto.
  Qed.

  Lemma faces_for_notin : forall z ps, ~ In z (map fst ps) -> faces_for z ps = [].
  Proof.
    intros z ps H. unfold faces_for. rewrite filter_nil_none; auto.
    intros [a b] Hx. apply Nat.eqb_neq. intro. subst. apply H. apply in_map_iff.
    exists (a, b). auto.
  Qed.

  Lemma linear_faces : forall fcpz fcrm fs zs i cur, NoDup zs ->
    forall j z, nth_error zs j = Some z ->
    faces_for z (linear_pairs fcpz fcrm i cur zs fs) =
    firstn (if i + j <? fcrm then S fcpz else fcpz)
      (skipn (cur + linear_total fcpz fcrm i (firstn j zs)) fs).
  Proof.
    intros fcpz fcrm fs zs. induction zs as [|a zs IH]; intros i cur Hn [|j] z Hz;
      simpl in Hz; try discriminate; inv Hn.
    - inv Hz. cbn [linear_pairs firstn linear_total]. rewrite !Nat.add_0_r.
      rewrite faces_for_app, faces_for_const_same. rewrite (faces_for_notin z).
      + rewrite app_nil_r. auto.
      + intro Hc. apply in_map_iff in Hc as ([x y] & E & Hc). simpl in E. subst.
        apply linear_pairs_fst in Hc. auto.
    - assert (a <> z) by (intro; subst; apply H1; eapply nth_error_In; eauto).
      cbn [linear_pairs firstn linear_total].
      rewrite faces_for_app, faces_for_const_other by auto. cbn [app].
      rewrite (IH _ _ H2 j z Hz). replace (S i + j) with (i + S j) by lia.
      rewrite Nat.add_assoc. reflexivity.
  Qed.

  Lemma linear_concat : forall fcpz fcrm fs zs i cur, NoDup zs ->
    concat (map (fun z => faces_for z (linear_pairs fcpz fcrm i cur zs fs)) zs)
    = map snd (linear_pairs fcpz fcrm i cur zs fs).
  Proof.
    intros fcpz fcrm fs zs. induction zs as [|a zs IH]; intros i cur Hn; [reflexivity|].
    inv Hn. cbn [linear_pairs map concat].
    set (k := if i <? fcrm then S fcpz else fcpz).
    rewrite map_app. f_equal.
    - rewrite faces_for_app, faces_for_const_same, (faces_for_notin a).
      + rewrite map_map. cbn. rewrite map_id, app_nil_r. auto.
      + intro Hc. apply in_map_iff in Hc as ([x y] & E & Hc). simpl in E. subst.
        apply linear_pairs_fst in Hc. auto.
    - rewrite <- (IH (S i) (cur + k) H2). f_equal. apply map_ext_in. intros z Hz.
      rewrite faces_for_app, faces_for_const_other; auto. intro. subst. auto.
  Qed.

  Lemma linear_ok : forall count nm h, grid_ok h -> count <> 0 ->
    exists h', decompose_linear count nm h = (Ok tt, h') /\ decomposed h h' nm /\
      length (g_zones h') = count /\
      concat (map (z_faces h') (g_zones h')) = g_faces h /\
      (forall i z, nth_error (g_zones h') i = Some z ->
         z_name h' z = lit "linear " ++ nat_str i /\
         length (z_faces h' z) = length (g_faces h) / count +
           (if i <? length (g_faces h) mod count then 1 else 0)).
  Proof.
    intros count nm h Hg Hc.
    destruct (rename_ok nm h Hg) as (h0 & E0 & G0 & M0 & N0 & _ & _ & _ & _ & _ & Nm0).
    unfold decompose_linear. rewrite (bind_run _ _ _ _ _ _ _ E0). rewrite bind_gets.
    assert (Egf0 : g_faces h0 = g_faces h) by (apply mesh_fields in M0; decompose [and] M0; congruence).
    rewrite Egf0. destruct (Nat.eqb_spec count 0) as [|_]; [contradiction|].
    rewrite bind_modify.
    destruct (prologue_ok (lit "linear ") count h0 G0) as (h1 & h2 & E1 & E2 & Em2 & En2 & R2 & Nn2).
    rewrite (bind_run _ _ _ _ _ _ _ E1), (bind_run _ _ _ _ _ _ _ E2), bind_gets.
    set (T := seq (next_z h0) count) in *.
    set (fcpz := length (g_faces h) / count). set (fcrm := length (g_faces h) mod count).
    assert (HT : length T = count) by apply seq_length.
    assert (HTn : NoDup T) by apply seq_NoDup.
    assert (M2 : mesh h2 = mesh h) by congruence.
    assert (Ht2 : topo_ok h2) by (eapply topo_mesh; [eauto|]; apply Hg).
    assert (Egf : g_faces h2 = g_faces h) by (apply mesh_fields in M2; decompose [and] M2; congruence).
    assert (Etot : linear_total fcpz fcrm 0 T = length (g_faces h)).
    { rewrite linear_total_val, HT. unfold fcpz, fcrm.
      pose proof (Nat.div_mod (length (g_faces h)) count Hc).
      pose proof (Nat.mod_upper_bound (length (g_faces h)) count Hc).
      rewrite (Nat.min_l _ (0 + count)) by lia. rewrite Nat.min_0_r. nia. }
    assert (Esnd : map snd (linear_pairs fcpz fcrm 0 0 T (g_faces h)) = g_faces h).
    { rewrite linear_pairs_snd, Etot. cbn [skipn]. apply firstn_all. }
    destruct (assign_all_ok h2 T (linear_pairs fcpz fcrm 0 0 T (g_faces h)) Ht2 R2)
      as (h3 & E3 & F3 & Z3 & Fz3 & Pz3).
    { intros z f. apply linear_pairs_fst. }
    { rewrite Esnd, Egf. apply Permutation_refl. }
    assert (E3' : linear_zones fcpz fcrm 0 0 (g_zones h2) h2 = (Ok (length (g_faces h)), h3)).
    { replace (g_zones h2) with T by (symmetry; apply R2).
      rewrite (linear_zones_assign fcpz fcrm (g_faces h)); auto; [|lia].
      rewrite (bind_run _ _ _ _ _ _ _ E3). rewrite Etot. reflexivity. }
    rewrite (bind_run _ _ _ _ _ _ _ E3'). rewrite Nat.eqb_refl.
    destruct (finish h h2 h3 nm) as (h4 & E4 & D4 & Gz4 & Zf4 & Zn4 & _ & Efz4); auto.
    { apply Hg. }
    { congruence. }
    pose proof (frameZ_fields _ _ F3) as (_ & Gz3 & _ & _ & _ & Zn3 & _ & _).
    assert (Gz : g_zones h4 = T) by (rewrite Gz4, Gz3; apply R2).
    exists h4. split; [auto|]. split; [auto|]. split; [rewrite Gz; auto|]. split.
    - rewrite Gz, Zf4. rewrite <- Esnd at 1. rewrite <- linear_concat by auto.
      f_equal. apply map_ext_in. intros z Hz. rewrite Fz3; auto.
    - intros i z Hi. rewrite Gz in Hi. rewrite Zn4, Zn3, Zf4.
      assert (Hlt : i < count) by (rewrite <- HT; apply nth_error_Some; congruence).
      rewrite Fz3 by (eapply nth_error_In; eauto).
      rewrite (linear_faces fcpz fcrm (g_faces h) T 0 0 HTn i z Hi). cbn [Nat.add]. split.
      + unfold T in Hi. rewrite nth_error_nth' with (d := 0) in Hi by (rewrite seq_length; auto).
        rewrite seq_nth in Hi by auto. injection Hi as <-. auto.
      + rewrite firstn_length, skipn_length.
        assert (linear_total fcpz fcrm 0 (firstn i T) + (if i <? fcrm then S fcpz else fcpz)
                <= length (g_faces h)).
        { rewrite <- Etot, !linear_total_val. rewrite firstn_length, HT.
          rewrite (Nat.min_l i count) by lia.
          pose proof (Nat.mod_upper_bound (length (g_faces h)) count Hc). fold fcrm in H.
          rewrite !Nat.min_0_r. cbn [Nat.add].
          destruct (Nat.ltb_spec i fcrm); nia. }
        destruct (Nat.ltb_spec i fcrm); lia.
  Qed.
End Simple.
