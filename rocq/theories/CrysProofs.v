(** Proofs about the program crys.py as a whole. *)

From Coq Require Import ZArith NArith Reals Ascii String Bool Lia Arith List FunctionalExtensionality.
From Verif Require Import Py PyLemmas Heap HeapLemmas GridModel GridSpec Zam ZamSpec ZamProofs Mpi MpiSpec MpiProofs GridIO FileSpec StoreSpec
  LoadParse LoadMain RoundTrip MergeProofs PlainProofs SamplesStore DecompSpec AssignProofs PartialZones SimpleDecomp FarhatProofs DecompMain
  Driver DriverSpec DriverProofs StrategyProofs Exchange ExchangeSpec ExchangeProofs Gather GatherProofs DecompProofs Atomic AtomicMain Geom Programs ProgramsSpec
  ProgramsProofs Crys CrysSpec.
From Verif Require Remesh RemeshSpec RemeshProofs.
Import ListNotations.
Open Scope list_scope.
Open Scope nat_scope.

Section CrysProofs.
  Context {F : FloatOps}.
  Variable plus : val -> Z -> val.

  (* ---------------------------------------------------------------- *)
  (** ** Arrays *)

  Lemma column_ok : forall h name z, (forall f, In f (z_faces h z) -> exists v, dget str_dec (f_data h f) name = Some v) ->
    column h name z = Ok (map (fun f => var_value h f name) (z_faces h z)).
  Proof.
    intros h name z. unfold column. induction (z_faces h z) as [|f l IH]; intros H; [reflexivity|].
    cbn [rmap map]. unfold get_data at 1, var_value at 1. destruct (H f (or_introl eq_refl)) as (v & E). rewrite E. cbn [rbind].
    rewrite IH; [reflexivity|]. intros g Hg. apply H. right. exact Hg.
  Qed.

  Lemma column_inv : forall h name z l, column h name z = Ok l ->
    l = map (fun f => var_value h f name) (z_faces h z) /\
    forall f, In f (z_faces h z) -> exists v, dget str_dec (f_data h f) name = Some v.
  Proof.
    intros h name z. unfold column. induction (z_faces h z) as [|f fs IH]; intros l E.
    - cbn in E. injection E as <-. split; [reflexivity|intros ? []].
    - cbn [rmap] in E. unfold get_data at 1 in E. destruct (dget str_dec (f_data h f) name) as [v|] eqn:Ev; [|discriminate].
      cbn [rbind] in E. destruct (rmap (get_data h name) fs) as [r|]; [|discriminate]. cbn [rbind] in E. injection E as <-.
      destruct (IH r eq_refl) as [-> K]. split.
      + cbn [map]. unfold var_value at 2. rewrite Ev. reflexivity.
      + intros g [<-|Hg]; eauto.
  Qed.

  Lemma column_missing : forall h name z f, In f (z_faces h z) -> dget str_dec (f_data h f) name = None ->
    column h name z = Raise EKeyError.
  Proof.
    intros h name z f. unfold column. induction (z_faces h z) as [|g fs IH]; intros Hf E; [destruct Hf|]. cbn [rmap].
    unfold get_data at 1. destruct Hf as [->|Hf]; [rewrite E; reflexivity|].
    destruct (dget str_dec (f_data h g) name); [|reflexivity]. cbn [rbind]. rewrite (IH Hf E). reflexivity.
  Qed.

  Lemma add_at_app : forall a x r k, add_at plus (a ++ x :: r) (length a) k = Ok (a ++ plus x k :: r).
  Proof.
    intros a x r k. unfold add_at. rewrite nth_error_app2, Nat.sub_diag by lia. cbn [nth_error]. f_equal.
    induction a as [|y a IH]; [reflexivity|]. cbn [app length list_set]. rewrite IH. reflexivity.
  Qed.

  Lemma loop_ok : forall r1 r2 r3 a1 a2 a3, length r2 = length r1 -> length r3 = length r1 ->
    length a2 = length a1 -> length a3 = length a1 ->
    hi_loop plus (length r1) (length a1) (a1 ++ r1) (a2 ++ r2) (a3 ++ r3) =
      Ok (a1 ++ map (fun x => plus x 1) r1, a2 ++ map (fun x => plus x 2) r2, a3 ++ map (fun x => plus x 3) r3).
  Proof.
    induction r1 as [|x r1 IH]; intros r2 r3 a1 a2 a3 L2 L3 M2 M3.
    - destruct r2; [|discriminate]. destruct r3; [|discriminate]. reflexivity.
    - destruct r2 as [|y r2]; [discriminate|]. destruct r3 as [|z r3]; [discriminate|]. cbn [length hi_loop].
      rewrite add_at_app. cbn [rbind]. rewrite <- M2 at 1. rewrite add_at_app. cbn [rbind]. rewrite <- M3 at 1. rewrite add_at_app. cbn [rbind].
      specialize (IH r2 r3 (a1 ++ [plus x 1]) (a2 ++ [plus y 2]) (a3 ++ [plus z 3])). rewrite !app_length in IH. cbn [length] in IH.
      rewrite <- !app_assoc in IH. cbn [app] in IH. cbn [length] in L2, L3.
      replace (length a1 + 1) with (S (length a1)) in IH by lia. rewrite IH by lia. cbn [map]. reflexivity.
  Qed.

  Lemma swim_ok : forall a1 a2 a3, length a2 = length a1 -> length a3 = length a1 ->
    swim_hi plus a1 a2 a3 = Ok (map (fun x => plus x 1) a1, map (fun x => plus x 2) a2, map (fun x => plus x 3) a3).
  Proof. intros a1 a2 a3 L2 L3. exact (loop_ok a1 a2 a3 [] [] [] L2 L3 eq_refl eq_refl). Qed.

  (* ---------------------------------------------------------------- *)
  (** ** Split on every rank *)

  Lemma kept_none : forall h, kept h [] = [].
  Proof. intros h. unfold kept. induction (g_zones h) as [|z l IH]; [reflexivity|]. cbn. exact IH. Qed.

  Lemma asks_size : forall size, asks (lit "n" ++ nat_str size) "n"%char (Z.of_nat size).
  Proof. intros size. exists (nat_str size). split; [reflexivity|apply py_int_nat_str]. Qed.

  Lemma plain_farhat : forall i, plain_name (lit "farhat " ++ nat_str i).
  Proof.
    intros i c Hc. apply in_app_or in Hc as [Hc|Hc].
    - cbn in Hc. repeat split; intros ->; repeat destruct Hc as [Hc|Hc]; try discriminate; auto.
    - pose proof (N_str_digits (N.of_nat i)) as G. rewrite forallb_forall in G. apply G in Hc.
      repeat split; intros ->; vm_compute in Hc; discriminate.
  Qed.
  Lemma plain_mono : plain_name (lit "mono").
  Proof. intros c Hc. cbn in Hc. repeat split; intros ->; repeat destruct Hc as [Hc|Hc]; try discriminate; auto. Qed.

  Lemma rf_outside : forall rf hl hr f k, rf_completed rf hl hr -> k <> recovery_factor ->
    dget str_dec (f_data hr f) k = dget str_dec (f_data hl f) k.
  Proof.
    intros rf hl hr f k [_ H] Hk. rewrite H. destruct (dget str_dec (f_data hl f) recovery_factor); [reflexivity|].
    destruct (in_dec Nat.eq_dec f (g_faces hl)); [|reflexivity]. rewrite dget_app.
    destruct (dget str_dec (f_data hl f) k); [reflexivity|]. cbn [dget]. destruct (str_dec k recovery_factor); [congruence|reflexivity].
  Qed.

  (** The grid that every rank has after split. *)
  Lemma split_ranks : forall text rf size h hl evs,
    faithful_numbers -> file_form [] (file_lines text) evs -> no_degenerate (zones_of evs) ->
    faces_in (zones_of evs) <> 0 -> load true text (new_grid h) = (Ok tt, hl) -> 1 <= size ->
    exists w h', split (Some text) (lit ".dat") (lit "n" ++ nat_str size) [] rf ToDat h = (Ok w, h') /\
      in_zones hl size h' /\ writable h' /\ mesh h' = mesh (set_f_data hl (f_data h')) /\
      rf_completed rf hl (set_f_data hl (f_data h')).
  Proof.
    intros text rf size h hl evs Hn Hf Nd Nf El Hs.
    pose proof (asks_size size) as Ha. apply parse_n in Ha. destruct (complete_ok rf hl) as (hr & Er & Hr).
    destruct (loaded_good _ _ _ _ El Hf Nd) as (Hok & _). pose proof (completed_ok _ _ _ Hr Hok) as Hokr.
    destruct (load_result _ _ _ _ _ El Hf) as [Ld _]. pose proof (faces_count _ _ (ld_zones _ _ _ Ld)) as Ec.
    assert (Eh : hr = set_f_data hl (f_data hr)) by exact (proj1 Hr).
    assert (Efr : g_faces hr = g_faces hl) by (rewrite Eh; reflexivity).
    assert (Hne : g_faces hr <> []) by (rewrite Efr; intros K; rewrite K in Ec; cbn in Ec; congruence).
    assert (D : exists h', decompose_by (Exact (Z.of_nat size)) [] hr = (Ok tt, h') /\ decomposed hr h' None /\
      length (g_zones h') = size /\ (forall z, In z (g_zones h') -> plain_name (z_name h' z)) /\
      (forall i z, nth_error (g_zones h') i = Some z ->
         length (z_faces h' z) = length (g_faces hl) / size + (if i <? length (g_faces hl) mod size then 1 else 0))).
    { unfold decompose_by. cbn [one_domain length]. destruct (Z.eqb_spec (Z.of_nat size) 1) as [E1|E1].
      - assert (size = 1) by lia. subst size. cbn [andb].
        destruct (mono_ok None hr Hokr) as (h' & z & E & Hd & Ez & En & Efz & _).
        exists h'. split; [exact E|]. split; [exact Hd|]. rewrite Ez. split; [reflexivity|]. split.
        + intros y [<-|[]]. rewrite En. exact plain_mono.
        + intros [|[|]] y Hy; cbn in Hy; try discriminate. injection Hy as <-. rewrite Efz, Efr, Nat.div_1_r, Nat.mod_1_r. cbn. lia.
      - cbn [andb]. destruct (Z.eqb_spec (Z.of_nat size) 0) as [|_]; [lia|]. destruct (Z.leb_spec (Z.of_nat size) (Z.of_nat 0)); [lia|].
        replace (Z.to_nat (Z.of_nat size - Z.of_nat 0)) with size by lia.
        destruct (farhat_ok size None [] hr Hokr) as (h' & T & E & Hd & Ez & LT & _ & Hnm); [lia|exact Hne|].
        rewrite kept_none in Ez, Hnm. cbn [app] in Ez. subst T. exists h'. split; [exact E|]. split; [exact Hd|]. split; [exact LT|]. split.
        + intros z Hz. apply In_nth_error in Hz as (i & Hi). destruct (Hnm i z Hi) as (-> & _). apply plain_farhat.
        + intros i z Hz. destruct (Hnm i z Hz) as (_ & -> & _). unfold fsize. cbn [map list_sum fold_right]. rewrite Nat.sub_0_r, Efr. reflexivity. }
    destruct D as (h' & E & Hd & L & Hz & Sz).
    destruct (split_state text h hl rf hr h' evs El Hf Nd Nf Hr Hd Hz) as (A & B & C & _ & W & _).
    destruct (write_ok ToDat h' Hn A B C W) as (out & Wo); [discriminate|].
    exists out, h'. split; [eapply split_go; eauto; intros ? []|].
    destruct Hd as (M & Nm & Zo & Zl & Zi). pose proof M as M'. apply mesh_fields in M'. decompose [and] M'.
    assert (Ed : f_data h' = f_data hr) by assumption.
    assert (Hout : forall f k, k <> recovery_factor -> dget str_dec (f_data h' f) k = dget str_dec (f_data hl f) k).
    { intros f k Hk. rewrite Ed. exact (rf_outside rf hl hr f k Hr Hk). }
    assert (Mh : mesh h' = mesh (set_f_data hl (f_data h'))) by (rewrite M, Ed, <- Eh; reflexivity).
    assert (Gn : g_name h' = g_name hl) by (rewrite Nm, Eh; reflexivity). clear Eh.
    assert (Rc : rf_completed rf hl (set_f_data hl (f_data h'))).
    { split; [reflexivity|]. intros f. change (f_data (set_f_data hl (f_data h')) f) with (f_data h' f). rewrite Ed. apply (proj2 Hr). }
    split; [|split; [exact W|split; [exact Mh|exact Rc]]].
    split; [split; [exact A|split; [exact B|split; [exact Zi|exact C]]]|]. split; [exact L|]. split; [exact Gn|].
    apply mesh_fields in Mh. decompose [and] Mh.
    do 7 (split; [assumption|]). split; [exact Hout|exact Sz].
  Qed.

  (* ---------------------------------------------------------------- *)
  (** ** Borders *)

  Lemma max_ok : forall l, l <> [] -> exists w, Zam.py_max l = Ok w /\ forall x, In x l -> x <= w.
  Proof.
    intros [|x l] H; [congruence|]. clear H. cbn [Zam.py_max]. exists (fold_left Nat.max l x). split; [reflexivity|].
    assert (G : forall l x, x <= fold_left Nat.max l x /\ forall y, In y l -> y <= fold_left Nat.max l x).
    { clear. induction l as [|a l IH]; intros x; cbn [fold_left]; [split; [lia|intros ? []]|]. destruct (IH (Nat.max x a)) as [A B].
      split; [lia|]. intros y [<-|Hy]; [lia|auto]. }
    destruct (G l x) as [A B]. intros y [<-|Hy]; auto.
  Qed.

  Lemma touching_zone : forall h z y, grid_ok h -> touching h z y -> In y (g_zones h).
  Proof.
    intros h z y [T Zo] (e & He & f & g & E & _ & Ey).
    assert (Hg : In g (g_faces h)).
    { apply (t_edge_faces h T e He). destruct E as [-> | ->]; cbn; auto. }
    destruct (zo_cover h Zo g Hg) as (y' & Hy & Ey'). congruence.
  Qed.

  Lemma borders_touching : forall h i z bs, grid_ok h -> zone_lists_ok h -> nth_error (g_zones h) i = Some z -> borders_ok h i z bs ->
    (bs <> [] <-> exists y, y <> z /\ touching h z y).
  Proof.
    intros h i z bs Hok Hl Hi [_ B]. split.
    - intros H. destruct bs as [|[j ks] bs]; [congruence|]. destruct (proj1 (B j ks) (or_introl eq_refl)) as (y & L & Hy & Hj & Sb & Ne & _).
      exists y. split.
      + intros ->. apply Hj. apply (proj1 (NoDup_nth_error (g_zones h)) (zo_nd h (proj2 Hok))); [apply nth_error_Some|]; congruence.
      + destruct L as [|e L]; [congruence|]. exists e. apply (DecompProofs.sublist_In _ _ _ _ e Sb). left. reflexivity.
    - intros (y & Hn & Ht). pose proof (touching_zone h z y Hok Ht) as Hy. apply In_nth_error in Hy as (j & Hj).
      set (L := filter (fun e => is_connect_zones h e z y) (g_edges h)).
      assert (Sb : sublist_of (joins h z y) (g_edges h) L) by (apply sublist_filter; intros; apply is_connect_joins).
      assert (Ne : L <> []).
      { destruct Ht as (e & He & J). assert (K : In e L) by (apply (DecompProofs.sublist_In _ _ _ _ e Sb); auto). intros K2. rewrite K2 in K. destruct K. }
      assert (P : exists ks, positions (z_edges h z) L ks).
      { assert (I : incl L (z_edges h z)).
        { intros e He. apply (DecompProofs.sublist_In _ _ _ _ e Sb) in He as (He & f & g & E & Ef & _).
          destruct (Hl z (nth_error_In _ _ Hi)) as [_ Se]. apply (DecompProofs.sublist_In _ _ _ _ e Se). split; [exact He|].
          exists f. split; [destruct E as [-> | ->]; cbn; auto|exact Ef]. }
        clear - I. induction L as [|e L IH]; [exists []; constructor|]. destruct IH as (ks & K); [intros x Hx; apply I; right; exact Hx|].
        pose proof (I e (or_introl eq_refl)) as He. apply In_nth_error in He as (k & Hk). exists (Z.of_nat k :: ks). constructor; [|exact K].
        rewrite Nat2Z.id. split; [lia|exact Hk]. }
      destruct P as (ks & P). intros ->. apply (proj2 (B j ks)). exists y, L. split; [exact Hj|]. split; [|auto].
      intros ->. congruence.
  Qed.

  Lemma pair_list : forall A (l : list A) a b, a <> b -> In a l -> In b l -> length l <= 2 -> l = [a; b] \/ l = [b; a].
  Proof.
    intros A l a b Hn Ha Hb L. destruct l as [|p [|q [|x l]]]; cbn in Ha, Hb, L; [destruct Ha| | |lia].
    - destruct Ha as [Ha|[]], Hb as [Hb|[]]. congruence.
    - destruct Ha as [Ha|[Ha|[]]], Hb as [Hb|[Hb|[]]]; subst; auto; congruence.
  Qed.

  (** Parts of a connected surface touch each other. *)
  Lemma adjacent_touch : forall h z a b, grid_ok h -> In a (g_faces h) -> adjacent h a b -> f_zone h a = Some z -> f_zone h b <> Some z ->
    exists y, y <> z /\ touching h z y.
  Proof.
    intros h z a b [T Zo] Ha (Hn & e & He & Ea & Eb) Za Zb.
    assert (Hg : In e (g_edges h)) by (apply (t_face_edges h T a Ha); exact He).
    destruct (t_edge_faces h T e Hg) as (L & Nd & I). destruct (zo_cover h Zo b (I b Eb)) as (y & Hy & Ey).
    exists y. split; [congruence|]. exists e. split; [exact Hg|]. exists a, b. split; [|auto].
    apply (pair_list _ (e_faces h e) a b Hn Ea Eb). lia.
  Qed.

  Lemma connected_touch : forall h z a b, grid_ok h -> connected h (g_faces h) -> In a (g_faces h) -> In b (g_faces h) ->
    f_zone h a = Some z -> f_zone h b <> Some z -> exists y, y <> z /\ touching h z y.
  Proof.
    intros h z a b Hok C Ha Hb Za. pose proof (C a b Ha Hb) as R. induction R as [|f g k R IH A P].
    - congruence.
    - intros Zk. assert (Hg : In g (g_faces h)) by (inversion R; assumption).
      destruct (f_zone h g) as [y|] eqn:Zg.
      + destruct (Nat.eq_dec y z) as [->|].
        * exact (adjacent_touch h z g k Hok Hg A Zg Zk).
        * apply IH; auto. congruence.
      + apply IH; auto. congruence.
  Qed.

  Lemma connected_data : forall h d l, connected h l -> connected (set_f_data h d) l.
  Proof.
    intros h d l C f g Hf Hg. pose proof (C f g Hf Hg) as R. clear - R. induction R as [f P|f g k R IH A P]; [constructor; exact P|].
    apply (reach_step _ _ f g k); [exact IH|exact A|exact P].
  Qed.

  (** The last part of the preparation. *)
  Lemma rank_borders_ok : forall h size rank a z, ready h -> zam_build h (g_edges h) (g_zones h) = Ok a -> nth_error (g_zones h) rank = Some z -> 1 < size ->
    exists bs, get_mpi_borders h rank a z = Ok bs /\ borders_ok h rank z bs /\
      ((exists y, y <> z /\ touching h z y) -> exists w, rank_borders h size rank a z = Ok (bs, w) /\ forall b, In b bs -> length (snd b) <= w) /\
      ((forall y, y <> z -> ~ touching h z y) -> rank_borders h size rank a z = Raise EValueError).
  Proof.
    intros h size rank a z (Hok & Hl & _ & Nb) Ea Hi Hs. destruct (get_mpi_borders_ok h a rank z Hok Hl Nb Ea Hi) as (bs & Eb & B).
    exists bs. split; [exact Eb|]. split; [exact B|]. unfold rank_borders. destruct (Nat.ltb_spec 1 size) as [_|]; [|lia]. rewrite Eb. cbn [rbind].
    pose proof (borders_touching h rank z bs Hok Hl Hi B) as K. split.
    - intros H. apply K in H. destruct (max_ok (map (fun b => length (snd b)) bs)) as (w & Ew & Hw).
      { destruct bs; [congruence|discriminate]. }
      rewrite Ew. exists w. split; [reflexivity|]. intros b Hb. apply Hw. apply in_map_iff. eauto.
    - intros H. destruct bs as [|b bs]; [reflexivity|]. exfalso. destruct (proj1 K) as (y & Hy & Ht); [discriminate|]. exact (H y Hy Ht).
  Qed.

  (* ---------------------------------------------------------------- *)
  (** ** Preparation of a rank *)

  (** What the rank with zone [z] has, given the grid [hl] of the file. *)
  Definition arrays_of (hl h' : heap) (z : nat) (p : prepared) : Prop :=
    pr_zone p = z /\
    pr_t p = map (fun f => plus (var_value hl f (lit "T")) 1) (z_faces h' z) /\
    pr_hi p = map (fun f => plus (var_value hl f (lit "Hi")) 2) (z_faces h' z) /\
    pr_hw p = map (fun f => plus (var_value hl f (lit "Hw")) 3) (z_faces h' z).

  Lemma zone_values : forall hl size h' z name k, in_zones hl size h' -> name <> recovery_factor ->
    map (fun x => plus x k) (map (fun f => var_value h' f name) (z_faces h' z)) = map (fun f => plus (var_value hl f name) k) (z_faces h' z).
  Proof.
    intros hl size h' z name k (_ & _ & _ & _ & _ & _ & _ & _ & _ & _ & D & _) Hn. rewrite map_map. apply map_ext. intros f.
    unfold var_value. rewrite (D f name Hn). reflexivity.
  Qed.

  Lemma zone_has : forall hl size h' z name, in_zones hl size h' -> In z (g_zones h') -> all_have hl work_vars -> In name work_vars ->
    forall f, In f (z_faces h' z) -> exists v, dget str_dec (f_data h' f) name = Some v.
  Proof.
    intros hl size h' z name (R & _ & _ & _ & _ & Gf & _ & _ & _ & _ & D & _) Hz Ha Hn f Hf.
    assert (Hg : In f (g_faces h')) by (apply (zo_faces h' (proj2 (proj1 R)) z f Hz); exact Hf).
    rewrite D; [rewrite Gf in Hg; exact (Ha f name Hg Hn)|]. intros ->. cbn in Hn. repeat (destruct Hn as [Hn|Hn]; [discriminate|]). exact Hn.
  Qed.

  Lemma zam_of : forall h, grid_ok h -> exists a, zam_build h (g_edges h) (g_zones h) = Ok a.
  Proof.
    intros h Hok. destruct (grid_edges_in_zones h Hok) as [Hnd He]. destruct (zam_main h (g_edges h) (g_zones h) Hnd He) as (a & E & _). eauto.
  Qed.

  Lemma prepare_steps : forall text rf size h w h' rank z hl a,
    split (Some text) (lit ".dat") (lit "n" ++ nat_str size) [] rf ToDat h = (Ok w, h') -> in_zones hl size h' ->
    zam_build h' (g_edges h') (g_zones h') = Ok a -> all_have hl work_vars -> nth_error (g_zones h') rank = Some z ->
    prepare plus text rf size rank h =
      bind (lift (rank_borders h' size rank a z)) (fun b =>
       ret (w, mkPrep z (map (fun f => plus (var_value hl f (lit "T")) 1) (z_faces h' z)) (map (fun f => plus (var_value hl f (lit "Hi")) 2) (z_faces h' z))
         (map (fun f => plus (var_value hl f (lit "Hw")) 3) (z_faces h' z)) (fst b) (snd b))) h'.
  Proof.
    intros text rf size h w h' rank z hl a Es I Ea Ha Hz. unfold prepare.
    pose proof (nth_error_In _ _ Hz) as Hzi.
    rewrite (bind_run _ _ _ _ _ _ _ Es). rewrite bind_gets. cbv beta. rewrite Ea, bind_lift_ok. cbv beta.
    rewrite (py_get_nat _ _ _ _ Hz), bind_lift_ok. cbv beta.
    rewrite (column_ok h' hi_name z) by (apply (zone_has hl size h' z); auto; cbn; auto). rewrite bind_lift_ok. cbv beta.
    rewrite (column_ok h' t_name z) by (apply (zone_has hl size h' z); auto; cbn; auto). rewrite bind_lift_ok. cbv beta.
    rewrite (column_ok h' hw_name z) by (apply (zone_has hl size h' z); auto; cbn; auto). rewrite bind_lift_ok. cbv beta.
    rewrite swim_ok by (rewrite !map_length; reflexivity). rewrite bind_lift_ok. cbv beta.
    rewrite !(zone_values hl size h' z) by (auto; discriminate). reflexivity.
  Qed.

  Section Run.
    Variables (text : str) (rf : val) (size : nat) (h hl : heap) (evs : list event).
    Hypothesis Hn : faithful_numbers.
    Hypothesis Hf : file_form [] (file_lines text) evs.
    Hypothesis Nd : no_degenerate (zones_of evs).
    Hypothesis Nf : faces_in (zones_of evs) <> 0.
    Hypothesis El : load true text (new_grid h) = (Ok tt, hl).
    Hypothesis Hs : 1 <= size.
    Notation prep := (prepare plus text rf size).

    (** Also the borders. *)
    Lemma prepare_full : all_have hl work_vars ->
      exists w h' a, split (Some text) (lit ".dat") (lit "n" ++ nat_str size) [] rf ToDat h = (Ok w, h') /\
        in_zones hl size h' /\ writable h' /\ mesh h' = mesh (set_f_data hl (f_data h')) /\
        rf_completed rf hl (set_f_data hl (f_data h')) /\
        zam_build h' (g_edges h') (g_zones h') = Ok a /\
        forall rank z, nth_error (g_zones h') rank = Some z ->
        (size = 1 \/ (exists y, y <> z /\ touching h' z y) ->
           exists p, prep rank h = (Ok (w, p), h') /\ arrays_of hl h' z p /\
             (1 < size -> get_mpi_borders h' rank a z = Ok (pr_borders p) /\ forall b, In b (pr_borders p) -> length (snd b) <= pr_width p)) /\
        (1 < size -> (forall y, y <> z -> ~ touching h' z y) -> fst (prep rank h) = Raise EValueError).
    Proof.
      intros Ha. destruct (split_ranks text rf size h hl evs Hn Hf Nd Nf El Hs) as (w & h' & Es & I & W & M & Rc).
      pose proof I as (R & L & _). destruct (zam_of h' (proj1 R)) as (a & Ea). exists w, h', a.
      split; [exact Es|]. split; [exact I|]. split; [exact W|]. split; [exact M|]. split; [exact Rc|]. split; [exact Ea|].
      intros rank z Hz. pose proof (prepare_steps text rf size h w h' rank z hl a Es I Ea Ha Hz) as Ep.
      destruct (le_lt_dec size 1) as [H1|H1].
      - assert (E1 : rank_borders h' size rank a z = Ok ([], 0)).
        { unfold rank_borders. destruct (Nat.ltb_spec 1 size); [lia|reflexivity]. }
        rewrite E1, bind_lift_ok in Ep. cbv beta in Ep. cbn [fst snd] in Ep. split; [|lia]. intros _.
        eexists. split; [exact Ep|]. split; [|lia]. split; [reflexivity|]. split; [reflexivity|]. split; reflexivity.
      - destruct (rank_borders_ok h' size rank a z R Ea Hz H1) as (bs & Eb & B & Y & N). split.
        + intros [E1|T]; [lia|]. destruct (Y T) as (wd & E2 & Wd). rewrite E2, bind_lift_ok in Ep. cbv beta in Ep. cbn [fst snd] in Ep.
          eexists. split; [exact Ep|]. split; [|cbn [pr_borders pr_width]; auto]. split; [reflexivity|]. split; [reflexivity|]. split; reflexivity.
        + intros _ T. rewrite (N T) in Ep. rewrite Ep. reflexivity.
    Qed.

    Lemma prepare_main : all_have hl work_vars ->
      exists w h', in_zones hl size h' /\ forall rank z, nth_error (g_zones h') rank = Some z ->
        (size = 1 \/ (exists y, y <> z /\ touching h' z y) -> exists p, prep rank h = (Ok (w, p), h') /\ arrays_of hl h' z p) /\
        (1 < size -> (forall y, y <> z -> ~ touching h' z y) -> fst (prep rank h) = Raise EValueError).
    Proof.
      intros Ha. destruct (prepare_full Ha) as (w & h' & a & _ & I & _ & _ & _ & _ & P). exists w, h'. split; [exact I|].
      intros rank z Hz. destruct (P rank z Hz) as [A B]. split; [|exact B]. intros H. destruct (A H) as (p & E & K & _). eauto.
    Qed.

    Lemma faces_left : g_faces hl <> [].
    Proof.
      destruct (load_result _ _ _ _ _ El Hf) as [Ld _]. pose proof (faces_count _ _ (ld_zones _ _ _ Ld)) as Ec.
      intros K. rewrite K in Ec. cbn in Ec. congruence.
    Qed.

    Lemma zone_size : forall h' i z, in_zones hl size h' -> nth_error (g_zones h') i = Some z ->
      length (z_faces h' z) = length (g_faces hl) / size + (if i <? length (g_faces hl) mod size then 1 else 0).
    Proof. intros h' i z (_ & _ & _ & _ & _ & _ & _ & _ & _ & _ & _ & S) Hz. exact (S i z Hz). Qed.

    (** On a connected surface every zone touches another one. *)
    Lemma all_touch : forall h' rank z, in_zones hl size h' -> mesh h' = mesh (set_f_data hl (f_data h')) -> connected hl (g_faces hl) ->
      size <= length (g_faces hl) -> 1 < size -> nth_error (g_zones h') rank = Some z -> exists y, y <> z /\ touching h' z y.
    Proof.
      intros h' rank z I M C Hle H1 Hz. pose proof I as (R & L & _ & _ & _ & Gf & _ & _ & _ & _ & _ & S). destruct R as (Hok & _).
      assert (Sz : forall i y, nth_error (g_zones h') i = Some y -> exists f, In f (z_faces h' y)).
      { intros i y Hy. pose proof (S i y Hy) as Ey. assert (1 <= length (g_faces hl) / size) by (apply Nat.div_le_lower_bound; lia).
        destruct (z_faces h' y) as [|f fs]; [cbn in Ey; lia|]. exists f. left. reflexivity. }
      destruct (Sz rank z Hz) as (fa & Fa).
      assert (O : exists i y, nth_error (g_zones h') i = Some y /\ y <> z).
      { destruct (Nat.eq_dec rank 0) as [->|Hr].
        - destruct (nth_error (g_zones h') 1) as [y|] eqn:E; [|apply nth_error_None in E; lia]. exists 1, y. split; [exact E|]. intros ->.
          assert (0 = 1); [|lia]. apply (proj1 (NoDup_nth_error (g_zones h')) (zo_nd h' (proj2 Hok))); [lia|congruence].
        - destruct (nth_error (g_zones h') 0) as [y|] eqn:E; [|apply nth_error_None in E; lia]. exists 0, y. split; [exact E|]. intros ->.
          apply Hr. apply (proj1 (NoDup_nth_error (g_zones h')) (zo_nd h' (proj2 Hok))); [apply nth_error_Some|]; congruence. }
      destruct O as (i & y & Hy & Hyz). destruct (Sz i y Hy) as (fb & Fb).
      apply (zo_faces h' (proj2 Hok) z fa (nth_error_In _ _ Hz)) in Fa as [Ga Za].
      apply (zo_faces h' (proj2 Hok) y fb (nth_error_In _ _ Hy)) in Fb as [Gb Zb].
      apply (connected_touch h' z fa fb Hok); auto; [|congruence].
      apply (connected_same (set_f_data hl (f_data h')) h' (g_faces hl) (g_faces h') M).
      - intros f. rewrite Gf. tauto.
      - exact (connected_data hl (f_data h') _ C).
    Qed.

    Lemma prepare_connected : all_have hl work_vars -> connected hl (g_faces hl) -> size <= length (g_faces hl) ->
      exists w h', in_zones hl size h' /\ forall rank z, nth_error (g_zones h') rank = Some z ->
        exists p, prep rank h = (Ok (w, p), h') /\ arrays_of hl h' z p.
    Proof.
      intros Ha C Hle. destruct (prepare_full Ha) as (w & h' & a & _ & I & _ & M & _ & _ & P). exists w, h'. split; [exact I|].
      intros rank z Hz. destruct (P rank z Hz) as [A _]. destruct A as (p & E & K & _); [|eauto].
      destruct (Nat.eq_dec size 1) as [|Hne]; [left; assumption|right]. apply (all_touch h' rank z I M C Hle); auto. lia.
    Qed.

    (** More ranks than faces. *)
    Lemma prepare_too_many : all_have hl work_vars -> length (g_faces hl) < size -> exists rank, rank < size /\ fst (prep rank h) = Raise EValueError.
    Proof.
      intros Ha Hlt. destruct (prepare_full Ha) as (w & h' & a & _ & I & _ & _ & _ & _ & P). pose proof I as (R & L & _).
      pose proof faces_left as Hfl. assert (1 < size) by (destruct (g_faces hl); [congruence|cbn in Hlt; lia]).
      exists (size - 1). split; [lia|]. destruct (nth_error (g_zones h') (size - 1)) as [z|] eqn:Hz; [|apply nth_error_None in Hz; lia].
      apply (P (size - 1) z Hz); [lia|]. intros y Hy (e & He & f & g & Ef & Zf & _).
      pose proof (zone_size h' _ z I Hz) as Sz. rewrite Nat.div_small, Nat.mod_small in Sz by lia.
      destruct (Nat.ltb_spec (size - 1) (length (g_faces hl))); [lia|]. cbn in Sz.
      assert (Hin : In f (z_faces h' z)).
      { destruct R as ([T Zo] & _). apply (zo_faces h' Zo z f (nth_error_In _ _ Hz)). split; [|exact Zf]. apply (t_edge_faces h' T e He).
        destruct Ef as [-> | ->]; cbn; auto. }
      destruct (z_faces h' z); [destruct Hin|discriminate].
    Qed.

    (** A variable is missing on some face. *)
    Lemma prepare_missing : forall f k, In f (g_faces hl) -> In k work_vars -> dget str_dec (f_data hl f) k = None ->
      exists rank, rank < size /\ fst (prep rank h) = Raise EKeyError.
    Proof.
      intros f k Hfc Hk Em. destruct (split_ranks text rf size h hl evs Hn Hf Nd Nf El Hs) as (w & h' & Es & I & _).
      pose proof I as (R & L & _ & _ & _ & Gf & _ & _ & _ & _ & D & _). destruct (zam_of h' (proj1 R)) as (a & Ea).
      destruct R as ([T Zo] & _). rewrite <- Gf in Hfc. destruct (zo_cover h' Zo f Hfc) as (z & Hz & Zf).
      assert (Hin : In f (z_faces h' z)) by (apply (zo_faces h' Zo z f Hz); auto).
      assert (Em' : dget str_dec (f_data h' f) k = None).
      { rewrite D; [exact Em|]. intros ->. cbn in Hk. repeat (destruct Hk as [Hk|Hk]; [discriminate|]). exact Hk. }
      apply In_nth_error in Hz as (rank & Hz). exists rank. split; [rewrite <- L; apply nth_error_Some; congruence|].
      unfold prepare. rewrite (bind_run _ _ _ _ _ _ _ Es), bind_gets. cbv beta. rewrite Ea, bind_lift_ok. cbv beta.
      rewrite (py_get_nat _ _ _ _ Hz), bind_lift_ok. cbv beta.
      assert (G : forall name, (exists l, column h' name z = Ok l) \/ column h' name z = Raise EKeyError).
      { intros name. unfold column. induction (z_faces h' z) as [|g fs IH]; [left; eexists; reflexivity|]. cbn [rmap]. unfold get_data at 1 3.
        destruct (dget str_dec (f_data h' g) name); [|right; reflexivity]. cbn [rbind].
        assert (X : (exists l, rmap (get_data h' name) fs = Ok l) \/ rmap (get_data h' name) fs = Raise EKeyError).
        { clear. induction fs as [|g fs IH]; [left; eexists; reflexivity|]. cbn [rmap]. unfold get_data at 1 3.
          destruct (dget str_dec (f_data h' g) name); [|right; reflexivity]. cbn [rbind]. destruct IH as [[l ->]| ->]; [left; eexists; reflexivity|right; reflexivity]. }
        destruct X as [[l ->]| ->]; [left; eexists; reflexivity|right; reflexivity]. }
      assert (Mk : column h' k z = Raise EKeyError) by exact (column_missing h' k z f Hin Em').
      destruct (G hi_name) as [[l1 E1]|E1]; [|rewrite E1; reflexivity]. rewrite E1, bind_lift_ok. cbv beta.
      destruct (G t_name) as [[l2 E2]|E2]; [|rewrite E2; reflexivity]. rewrite E2, bind_lift_ok. cbv beta.
      destruct (G hw_name) as [[l3 E3]|E3]; [|rewrite E3; reflexivity]. exfalso.
      assert (Hk' : In k [t_name; hi_name; hw_name]) by exact Hk. destruct Hk' as [K|[K|[K|[]]]]; rewrite <- K in Mk; congruence.
    Qed.
  End Run.
End CrysProofs.
