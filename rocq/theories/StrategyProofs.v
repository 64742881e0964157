(** Proofs about split. *)

From Coq Require Import ZArith NArith Ascii String Bool Lia List Permutation.
From Verif Require Import Py PyLemmas Heap HeapLemmas GridModel GridSpec DecompSpec DecompProofs AssignProofs SimpleDecomp
  DecompMain Mpi MpiSpec MpiProofs GridIO FileSpec StoreSpec Utils
  LoadParse LoadPlace LoadMain LoadFresh LoadProps StoreProofs RoundTrip SamplesStore PlainProofs Driver DriverSpec
  DriverProofs MergeProofs.
Import ListNotations.
Open Scope list_scope.
Open Scope nat_scope.

Section Split.
  Context {F : FloatOps}.

  (* ---------------------------------------------------------------- *)
  (** ** Recovery factor *)

  Lemma dset_new : forall V (d : dict str V) k v, dget str_dec d k = None -> dset str_dec d k v = d ++ [(k, v)].
  Proof.
    intros V d k v. induction d as [|[a b] d IH]; intros H; cbn in *; [auto|].
    destruct (str_dec k a); [discriminate|]. f_equal. auto.
  Qed.

  Lemma dget_app : forall V (d : dict str V) k v k', dget str_dec (d ++ [(k, v)]) k' =
    match dget str_dec d k' with Some x => Some x | None => if str_dec k' k then Some v else None end.
  Proof.
    intros V d k v k'. induction d as [|[a b] d IH]; cbn; [auto|]. destruct (str_dec k' a); auto.
  Qed.

  Definition put_rf (rf : val) (d : nat -> dict str val) (f : nat) : nat -> dict str val :=
    match dget str_dec (d f) rf_name with
    | Some _ => d
    | None => upd d f (d f ++ [(rf_name, rf)])
    end.

  Lemma complete_run : forall rf fs h,
    for_each fs (fun f => modify (fun h =>
      match dget str_dec (f_data h f) rf_name with
      | Some _ => h
      | None => set_f_data h (upd (f_data h) f (dset str_dec (f_data h f) rf_name rf))
      end)) h = (Ok tt, set_f_data h (fold_left (put_rf rf) fs (f_data h))).
  Proof.
    intros rf. induction fs as [|f fs IH]; intros h; [destruct h; reflexivity|]. cbn [for_each fold_left].
    rewrite bind_modify. rewrite IH. unfold put_rf at 3.
    destruct (dget str_dec (f_data h f) rf_name) eqn:E; [reflexivity|].
    rewrite (dset_new _ _ _ _ E). reflexivity.
  Qed.

  Lemma put_rf_fold : forall rf fs d f, fold_left (put_rf rf) fs d f =
    match dget str_dec (d f) rf_name with
    | None => if in_dec Nat.eq_dec f fs then d f ++ [(rf_name, rf)] else d f
    | Some _ => d f
    end.
  Proof.
    intros rf. induction fs as [|g fs IH]; intros d f.
    - cbn [fold_left]. destruct (dget str_dec (d f) rf_name); [reflexivity|].
      destruct (in_dec Nat.eq_dec f []) as [[]|]; reflexivity.
    - cbn [fold_left]. rewrite IH. clear IH. unfold put_rf.
      destruct (dget str_dec (d g) rf_name) eqn:Eg.
      + destruct (dget str_dec (d f) rf_name) eqn:Ef; auto.
        destruct (in_dec Nat.eq_dec f fs), (in_dec Nat.eq_dec f (g :: fs)); auto.
        * exfalso. apply n. simpl. auto.
        * exfalso. destruct i as [->|i]; [congruence|contradiction].
      + destruct (Nat.eq_dec f g) as [->|Hne].
        * rewrite upd_same, dget_app, Eg. destruct (str_dec rf_name rf_name); [|congruence].
          destruct (in_dec Nat.eq_dec g (g :: fs)); auto. exfalso. apply n. simpl. auto.
        * rewrite !upd_other by auto. destruct (dget str_dec (d f) rf_name); auto.
          destruct (in_dec Nat.eq_dec f fs), (in_dec Nat.eq_dec f (g :: fs)); auto.
          -- exfalso. apply n. simpl. auto.
          -- exfalso. destruct i as [->|i]; [congruence|contradiction].
  Qed.

  Lemma complete_ok : forall rf h, exists h', complete_rf rf h = (Ok tt, h') /\ rf_completed rf h h'.
  Proof.
    intros rf h. unfold complete_rf. eexists. split.
    - rewrite bind_gets. apply complete_run.
    - split; [reflexivity|]. intros f. change (f_data (set_f_data h ?d)) with d. apply put_rf_fold.
  Qed.

  Lemma completed_get : forall rf h h' f, rf_completed rf h h' -> In f (g_faces h) ->
    dget str_dec (f_data h' f) recovery_factor =
      Some (match dget str_dec (f_data h f) recovery_factor with Some v => v | None => rf end) /\
    forall k, k <> recovery_factor -> dget str_dec (f_data h' f) k = dget str_dec (f_data h f) k.
  Proof.
    intros rf h h' f [_ H] Hf. rewrite H. destruct (dget str_dec (f_data h f) recovery_factor) eqn:E.
    - rewrite E. auto.
    - destruct (in_dec Nat.eq_dec f (g_faces h)); [|contradiction]. split.
      + rewrite dget_app, E. destruct (str_dec recovery_factor recovery_factor); congruence.
      + intros k Hk. rewrite dget_app. destruct (dget str_dec (f_data h f) k); auto.
        destruct (str_dec k recovery_factor); congruence.
  Qed.

  (* ---------------------------------------------------------------- *)
  (** ** Steps of split *)

  Lemma mem_names : forall fz names, mem (str_eqb fz) names = true <-> In fz names.
  Proof.
    intros fz names. induction names as [|x names IH]; cbn; [split; [discriminate|intros []]|].
    rewrite orb_true_iff, IH, str_eqb_eq. split; intros [H|H]; auto.
  Qed.

  Lemma check_ok : forall fixed h, (forall nm, In nm fixed -> In nm (map (z_name h) (g_zones h))) ->
    check_fixed fixed h = (Ok tt, h).
  Proof.
    intros fixed h H. unfold check_fixed. rewrite bind_gets. set (names := map (z_name h) (g_zones h)) in *.
    clearbody names. induction fixed as [|x fixed IH]; [reflexivity|]. cbn [for_each].
    assert (E : mem (str_eqb x) names = true) by (apply mem_names; apply H; simpl; auto).
    unfold raise_if at 1. rewrite E. cbn [negb]. rewrite bind_ret. apply IH. intros; apply H; simpl; auto.
  Qed.

  Lemma check_bad : forall fixed h nm, In nm fixed -> ~ In nm (map (z_name h) (g_zones h)) ->
    check_fixed fixed h = (Raise EException, h).
  Proof.
    intros fixed h nm Hn H. unfold check_fixed. rewrite bind_gets. set (names := map (z_name h) (g_zones h)) in *.
    clearbody names. induction fixed as [|x fixed IH]; [destruct Hn|]. cbn [for_each].
    unfold raise_if at 1. destruct (mem (str_eqb x) names) eqn:E; cbn [negb].
    - rewrite bind_ret. apply IH. destruct Hn as [->|Hn]; auto. apply mem_names in E. contradiction.
    - reflexivity.
  Qed.

  Lemma check_inv : forall fixed h h', check_fixed fixed h = (Ok tt, h') ->
    h' = h /\ forall nm, In nm fixed -> In nm (map (z_name h) (g_zones h)).
  Proof.
    intros fixed h h' E.
    assert (D : (forall nm, In nm fixed -> In nm (map (z_name h) (g_zones h))) \/
                exists nm, In nm fixed /\ ~ In nm (map (z_name h) (g_zones h))).
    { clear E. induction fixed as [|x fixed IH]; [left; intros ? []|].
      destruct (in_dec str_dec x (map (z_name h) (g_zones h))) as [Hx|Hx].
      - destruct IH as [IH|(nm & H1 & H2)]; [left; intros nm [<-|K]; auto|right; exists nm; simpl; auto].
      - right. exists x. simpl. auto. }
    destruct D as [D|(nm & H1 & H2)].
    - rewrite (check_ok fixed h D) in E. injection E as <-. auto.
    - rewrite (check_bad fixed h nm H1 H2) in E. discriminate.
  Qed.

  (** The first part of split. *)
  Lemma split_decompose_run : forall text strat fixed rf h hl, load true text (new_grid h) = (Ok tt, hl) ->
    (forall nm, In nm fixed -> In nm (map (z_name hl) (g_zones hl))) ->
    exists hr, rf_completed rf hl hr /\
      split_decompose text strat fixed rf h = bind (lift (parse_strategy strat)) (fun st => decompose_by st fixed) hr.
  Proof.
    intros text strat fixed rf h hl El Hf. destruct (complete_ok rf hl) as (hr & Er & Hr). exists hr. split; auto.
    unfold split_decompose. rewrite bind_modify, (bind_run _ _ _ _ _ _ _ El), (bind_run _ _ _ _ _ _ _ (check_ok _ _ Hf)),
      (bind_run _ _ _ _ _ _ _ Er). reflexivity.
  Qed.

  Lemma split_decompose_inv : forall text strat fixed rf h h', split_decompose text strat fixed rf h = (Ok tt, h') ->
    exists hl hr st, load true text (new_grid h) = (Ok tt, hl) /\
      (forall nm, In nm fixed -> In nm (map (z_name hl) (g_zones hl))) /\
      rf_completed rf hl hr /\ parse_strategy strat = Ok st /\ decompose_by st fixed hr = (Ok tt, h').
  Proof.
    intros text strat fixed rf h h' E. unfold split_decompose in E. rewrite bind_modify in E.
    apply bind_inv in E as ([] & hl & El & E). apply bind_inv in E as ([] & h2 & E2 & E).
    apply check_inv in E2 as [-> Hf]. apply bind_inv in E as ([] & hr & E3 & E).
    destruct (complete_ok rf hl) as (hr' & Er & Hr). rewrite Er in E3. injection E3 as <-.
    apply bind_inv in E as (st & h3 & E4 & E). apply lift_inv2 in E4 as [E4 ->]. exists hl, hr', st. auto.
  Qed.

  Lemma parse_h : forall strat n, parse_strategy strat = Ok (Hier n) <-> asks strat "h"%char n.
  Proof.
    intros strat n. unfold parse_strategy, asks. destruct strat as [|c s].
    - cbn. split; [discriminate|intros (s & E & _); discriminate].
    - change (py_get (c :: s) 0) with (Ok c). cbn [rbind skipn].
      destruct (Ascii.eqb_spec c "h"%char) as [->|Hh].
      + destruct (py_int s) as [m|e] eqn:Ei; cbn [rbind]; split.
        * intros E. injection E as ->. exists s. auto.
        * intros (s' & E & E'). congruence.
        * discriminate.
        * intros (s' & E & E'). congruence.
      + destruct (Ascii.eqb_spec c "n"%char) as [->|Hn].
        * destruct (py_int s); cbn [rbind]; (split; [discriminate|intros (s' & E & _); congruence]).
        * split; [discriminate|intros (s' & E & _); congruence].
  Qed.

  Lemma parse_n : forall strat n, parse_strategy strat = Ok (Exact n) <-> asks strat "n"%char n.
  Proof.
    intros strat n. unfold parse_strategy, asks. destruct strat as [|c s].
    - cbn. split; [discriminate|intros (s & E & _); discriminate].
    - change (py_get (c :: s) 0) with (Ok c). cbn [rbind skipn].
      destruct (Ascii.eqb_spec c "h"%char) as [->|Hh].
      + destruct (py_int s); cbn [rbind]; (split; [discriminate|intros (s' & E & _); congruence]).
      + destruct (Ascii.eqb_spec c "n"%char) as [->|Hn].
        * destruct (py_int s) as [m|e] eqn:Ei; cbn [rbind]; split.
          -- intros E. injection E as ->. exists s. auto.
          -- intros (s' & E & E'). congruence.
          -- discriminate.
          -- intros (s' & E & E'). congruence.
        * split; [discriminate|intros (s' & E & _); congruence].
  Qed.

  Lemma decompose_by_decomposed : forall st fixed h h', grid_ok h -> order_ok ->
    decompose_by st fixed h = (Ok tt, h') -> decomposed h h' None.
  Proof.
    intros st fixed h h' Hg Ho E. unfold decompose_by in E.
    destruct (one_domain st && match fixed with [] => true | _ => false end).
    - exact (mono_returns _ _ _ Hg E).
    - destruct st as [n|n].
      + exact (hier_returns _ _ _ _ _ _ Ho axis_signs_mesh Hg E).
      + destruct (n =? 0)%Z; [discriminate|]. destruct (n <=? Z.of_nat (length fixed))%Z; [discriminate|].
        exact (farhat_returns _ _ _ _ _ Hg E).
  Qed.

  Lemma decompose_by_exact : forall n fixed h h', grid_ok h ->
    decompose_by (Exact n) fixed h = (Ok tt, h') -> decomposed h h' None.
  Proof.
    intros n fixed h h' Hg E. unfold decompose_by in E.
    destruct (one_domain (Exact n) && match fixed with [] => true | _ => false end).
    - exact (mono_returns _ _ _ Hg E).
    - destruct (n =? 0)%Z; [discriminate|]. destruct (n <=? Z.of_nat (length fixed))%Z; [discriminate|].
      exact (farhat_returns _ _ _ _ _ Hg E).
  Qed.

  Lemma completed_ok : forall rf h h', rf_completed rf h h' -> grid_ok h -> grid_ok h'.
  Proof. intros rf h h' [-> _] H. apply grid_ok_data. auto. Qed.

  Lemma split_inv : forall text sf strat fixed rf t h out h',
    split (Some text) sf strat fixed rf t h = (Ok out, h') ->
    sf = lit ".dat" /\ split_decompose text strat fixed rf h = (Ok tt, h') /\ write_out t h' = Ok out.
  Proof.
    intros text sf strat fixed rf t h out h' E. unfold split in E.
    destruct (str_eqb sf (lit ".dat")) eqn:Es; [|discriminate]. apply str_eqb_eq in Es.
    apply bind_inv in E as ([] & h1 & E1 & E). rewrite bind_gets in E. apply lift_inv2 in E as [E ->]. auto.
  Qed.

  (** C31. *)
  Lemma split_rf_main : forall text sf strat fixed rf t h out h' evs, order_ok ->
    file_form [] (file_lines text) evs -> no_degenerate (zones_of evs) ->
    split (Some text) sf strat fixed rf t h = (Ok out, h') ->
    exists hl, load true text (new_grid h) = (Ok tt, hl) /\ g_faces h' = g_faces hl /\
      forall f, In f (g_faces h') ->
        dget str_dec (f_data h' f) (lit "RecoveryFactor") =
          Some (match dget str_dec (f_data hl f) (lit "RecoveryFactor") with Some v => v | None => rf end) /\
        forall k, k <> lit "RecoveryFactor" -> dget str_dec (f_data h' f) k = dget str_dec (f_data hl f) k.
  Proof.
    intros text sf strat fixed rf t h out h' evs Ho Hf Nd E.
    apply split_inv in E as (_ & E & _).
    apply split_decompose_inv in E as (hl & hr & st & El & _ & Hr & _ & E).
    destruct (loaded_good _ _ _ _ El Hf Nd) as (Hok & _).
    pose proof (decompose_by_decomposed _ _ _ _ (completed_ok _ _ _ Hr Hok) Ho E) as (M & _).
    exists hl. split; auto. apply mesh_fields in M. decompose [and] M.
    assert (Efr : g_faces hr = g_faces hl) by (destruct Hr as [K _]; rewrite K; reflexivity).
    assert (Ef : g_faces h' = g_faces hl) by congruence.
    split; auto. intros f Hin. rewrite Ef in Hin.
    assert (Ed : f_data h' = f_data hr) by congruence. rewrite Ed.
    exact (completed_get rf hl hr f Hr Hin).
  Qed.

  (* ---------------------------------------------------------------- *)
  (** ** Strategies *)

  Lemma rf_plain : plain_var recovery_factor.
  Proof.
    assert (G : forallb (fun c => negb (is_space c) && negb (Ascii.eqb c dquote) && negb (Ascii.eqb c comma) &&
      negb (Ascii.eqb c eqsign)) recovery_factor = true) by reflexivity.
    split; [discriminate|]. intros c Hc. rewrite forallb_forall in G. specialize (G c Hc).
    destruct (is_space c); [discriminate|].
    split; [auto|]. repeat split; intros ->; vm_compute in G; discriminate.
  Qed.

  Lemma numbered_mesh : forall h h', mesh h' = mesh h -> numbered h -> numbered h'.
  Proof.
    intros h h' M Hn. unfold mesh in M. injection M. intros. unfold numbered in *.
    destruct Hn as (N1 & N2 & N3). split; [congruence|]. split; congruence.
  Qed.

  Lemma merged_mesh : forall h h', mesh h' = mesh h -> nodes_merged h -> nodes_merged h'.
  Proof.
    intros h h' M Hn. unfold mesh in M. injection M. intros. unfold nodes_merged in *.
    replace (n_rc h') with (n_rc h) by congruence. replace (g_nodes h') with (g_nodes h) by congruence.
    replace (g_bag h') with (g_bag h) by congruence. replace (n_p h') with (n_p h) by congruence. auto.
  Qed.

  (** The grid after split can be written. *)
  Lemma split_state : forall text h hl rf hr h' evs,
    load true text (new_grid h) = (Ok tt, hl) -> file_form [] (file_lines text) evs ->
    no_degenerate (zones_of evs) -> faces_in (zones_of evs) <> 0 ->
    rf_completed rf hl hr -> decomposed hr h' None ->
    (forall z, In z (g_zones h') -> plain_name (z_name h' z)) ->
    grid_ok h' /\ zone_lists_ok h' /\ numbered h' /\ nodes_merged h' /\ writable h' /\
    In recovery_factor (grid_vars h').
  Proof.
    intros text h hl rf hr h' evs El Hf Nd Nf Hr Hd Hz.
    destruct (loaded_good _ _ _ _ El Hf Nd) as (Hok & Hl & Hnb & Hm).
    destruct (loaded_names _ _ _ _ _ El Hf) as (_ & Hv & Hp).
    destruct (load_result _ _ _ _ _ El Hf) as [Ld _]. pose proof (faces_count _ _ (ld_zones _ _ _ Ld)) as Ec.
    pose proof (completed_ok _ _ _ Hr Hok) as Hokr.
    pose proof Hr as [Er Hdata].
    assert (Hnr : numbered hr) by (rewrite Er; exact Hnb).
    assert (Hmr : nodes_merged hr) by (rewrite Er; exact Hm).
    assert (Efr : g_faces hr = g_faces hl) by (rewrite Er; reflexivity).
    assert (Enr : g_name hr = g_name hl) by (rewrite Er; reflexivity).
    clear Er. destruct Hd as (M & Nm & Z & L & _).
    assert (Ht' : topo_ok h') by (eapply topo_mesh; [exact M|apply Hokr]).
    pose proof (numbered_mesh _ _ M Hnr) as Hn'. pose proof (merged_mesh _ _ M Hmr) as Hm'.
    apply mesh_fields in M. decompose [and] M.
    assert (Ef : g_faces h' = g_faces hl) by congruence.
    assert (Ed : f_data h' = f_data hr) by congruence.
    assert (G : forall f, In f (g_faces hl) -> In recovery_factor (keys (f_data h' f)) /\
      (forall k, In k (keys (f_data h' f)) -> plain_var k) /\ NoDup (keys (f_data h' f))).
    { intros f Hin. destruct (Hv f Hin) as [V1 V2]. rewrite Ed, Hdata.
      destruct (dget str_dec (f_data hl f) recovery_factor) eqn:E.
      - split; [|auto]. apply dget_In in E. apply in_map_iff. exists (recovery_factor, v). auto.
      - destruct (in_dec Nat.eq_dec f (g_faces hl)); [|contradiction]. apply dget_None in E.
        unfold keys in *. rewrite map_app. cbn [map fst]. split; [apply in_or_app; right; simpl; auto|]. split.
        + intros k K. apply in_app_or in K as [K|[<-|[]]]; [auto|apply rf_plain].
        + apply (Permutation_NoDup (l := recovery_factor :: map fst (f_data hl f))); [apply Permutation_cons_append|].
          constructor; auto. }
    split; [split; auto|]. split; [auto|]. split; [auto|]. split; [auto|].
    unfold writable, grid_vars. rewrite Ef.
    destruct (g_faces hl) as [|f fs] eqn:Eg; [cbn in Ec; congruence|].
    destruct (G f (or_introl eq_refl)) as (G1 & G2 & G3).
    split; [|auto]. split; [discriminate|]. split; [|auto].
    rewrite Nm, Enr. apply Hp. right. intros c [].
  Qed.

  Lemma write_ok : forall t h, faithful_numbers -> grid_ok h -> zone_lists_ok h -> numbered h -> writable h ->
    t <> ToNothing -> exists out, write_out t h = Ok out.
  Proof.
    intros t h Hn Hok Hl Hnb Hw Ht. destruct t; [| |congruence]; cbn [write_out].
    - destruct (store_ok h Hn Hok Hl Hnb Hw) as (text & blocks & E & _). rewrite E. cbn. eauto.
    - destruct (mpi_match_main h Hok Hl Hnb) as (ms & E & _). rewrite E. cbn. eauto.
  Qed.

  (** What is written: a grid file that gives the same grid when loaded, or the files
      for the MPI program. *)
  Lemma split_written_main : forall text sf strat fixed rf h s h' evs,
    order_ok -> faithful_numbers -> file_form [] (file_lines text) evs ->
    no_degenerate (zones_of evs) -> faces_in (zones_of evs) <> 0 ->
    split (Some text) sf strat fixed rf ToDat h = (Ok (WDat s), h') ->
    (forall z, In z (g_zones h') -> plain_name (z_name h' z)) ->
    forall h1, exists h2, load true s h1 = (Ok tt, h2) /\ same_contents (grid_vars h') h' h2 /\
      In (lit "RecoveryFactor") (grid_vars h').
  Proof.
    intros text sf strat fixed rf h s h' evs Ho Hn Hf Nd Nf E Hz h1.
    apply split_inv in E as (_ & E & W).
    apply split_decompose_inv in E as (hl & hr & st & El & _ & Hr & _ & E).
    destruct (loaded_good _ _ _ _ El Hf Nd) as (Hok & _).
    pose proof (decompose_by_decomposed _ _ _ _ (completed_ok _ _ _ Hr Hok) Ho E) as Hd.
    destruct (split_state text h hl rf hr h' evs El Hf Nd Nf Hr Hd Hz) as (A & B & C & D & W' & R).
    destruct (round_trip h' h1 Hn A B C D W') as (s' & h2 & Es & E2 & Sc & _).
    cbn [write_out] in W. rewrite Es in W. cbn in W. injection W as <-. exists h2. auto.
  Qed.

  Lemma split_go : forall text strat fixed rf t h hl hr h' out st,
    load true text (new_grid h) = (Ok tt, hl) ->
    (forall nm, In nm fixed -> In nm (map (z_name hl) (g_zones hl))) ->
    parse_strategy strat = Ok st -> rf_completed rf hl hr -> complete_rf rf hl = (Ok tt, hr) ->
    decompose_by st fixed hr = (Ok tt, h') -> write_out t h' = Ok out ->
    split (Some text) (lit ".dat") strat fixed rf t h = (Ok out, h').
  Proof.
    intros text strat fixed rf t h hl hr h' out st El Hfx Hp Hr Er E W.
    unfold split. change (str_eqb (lit ".dat") (lit ".dat")) with true. cbn match.
    assert (Es : split_decompose text strat fixed rf h = (Ok tt, h')).
    { unfold split_decompose. rewrite bind_modify, (bind_run _ _ _ _ _ _ _ El), (bind_run _ _ _ _ _ _ _ (check_ok _ _ Hfx)),
        (bind_run _ _ _ _ _ _ _ Er), Hp, bind_lift_ok. exact E. }
    rewrite (bind_run _ _ _ _ _ _ _ Es), bind_gets, W. reflexivity.
  Qed.

  Lemma zones_named_none : forall h, zones_named h [] [].
  Proof.
    intros h. unfold zones_named. induction (g_zones h) as [|z l IH]; [constructor|]. apply sub_drop; auto.
  Qed.

  Lemma named_data : forall h hr rf names K, rf_completed rf h hr -> zones_named hr names K -> zones_named h names K.
  Proof. intros h hr rf names K [E _] H. rewrite E in H. exact H. Qed.

  (** C30, strategy n<k>. *)
  Lemma split_exact_main : forall text strat fixed k rf t h hl evs,
    faithful_numbers -> file_form [] (file_lines text) evs -> no_degenerate (zones_of evs) ->
    faces_in (zones_of evs) <> 0 -> load true text (new_grid h) = (Ok tt, hl) ->
    asks strat "n"%char k -> (Z.of_nat (length fixed) < k)%Z ->
    (forall nm, In nm fixed -> In nm (map (z_name hl) (g_zones hl))) -> t <> ToNothing ->
    exists out h' K T, split (Some text) (lit ".dat") strat fixed rf t h = (Ok out, h') /\
      zones_ok h' /\ zone_lists_ok h' /\ g_zones h' = K ++ T /\
      zones_named hl fixed K /\ (forall z, In z K -> z_faces h' z = z_faces hl z /\ z_name h' z = z_name hl z) /\
      Z.of_nat (length T) = (k - Z.of_nat (length fixed))%Z /\
      (fixed = [] -> k = 1%Z -> forall z, In z T -> z_name h' z = lit "mono" /\ z_faces h' z = g_faces h').
  Proof.
    intros text strat fixed k rf t h hl evs Hn Hf Nd Nf El Ha Hk Hfx Ht.
    apply parse_n in Ha. destruct (complete_ok rf hl) as (hr & Er & Hr).
    destruct (loaded_good _ _ _ _ El Hf Nd) as (Hok & _). pose proof (completed_ok _ _ _ Hr Hok) as Hokr.
    destruct (load_result _ _ _ _ _ El Hf) as [Ld _]. pose proof (faces_count _ _ (ld_zones _ _ _ Ld)) as Ec.
    assert (Efr : g_faces hr = g_faces hl) by (destruct Hr as [K _]; rewrite K; reflexivity).
    assert (Ezr : z_faces hr = z_faces hl) by (destruct Hr as [K _]; rewrite K; reflexivity).
    assert (Enr : z_name hr = z_name hl) by (destruct Hr as [K _]; rewrite K; reflexivity).
    assert (Egr : g_zones hr = g_zones hl) by (destruct Hr as [K _]; rewrite K; reflexivity).
    destruct (loaded_names _ _ _ _ _ El Hf) as (Hzn & _ & _).
    assert (D : exists h' K T, decompose_by (Exact k) fixed hr = (Ok tt, h') /\ decomposed hr h' None /\
      g_zones h' = K ++ T /\ zones_named hr fixed K /\
      (forall z, In z K -> z_faces h' z = z_faces hr z /\ z_name h' z = z_name hr z) /\
      Z.of_nat (length T) = (k - Z.of_nat (length fixed))%Z /\
      (forall z, In z T -> plain_name (z_name h' z)) /\
      (fixed = [] -> k = 1%Z -> forall z, In z T -> z_name h' z = lit "mono" /\ z_faces h' z = g_faces h')).
    { unfold decompose_by. cbn [one_domain].
      destruct ((k =? 1)%Z && match fixed with [] => true | _ => false end) eqn:E1.
      - apply andb_true_iff in E1 as [E1 E2]. apply Z.eqb_eq in E1. destruct fixed; [|discriminate].
        destruct (mono_ok None hr Hokr) as (h' & z & E & Hd & Ez & En & Efz & _).
        assert (Eg : g_faces h' = g_faces hr) by (destruct Hd as (M & _); apply mesh_fields in M; decompose [and] M; congruence).
        exists h', [], [z]. split; [exact E|]. split; [exact Hd|]. split; [exact Ez|]. split; [apply zones_named_none|].
        split; [intros ? []|]. split; [cbn; lia|]. split.
        + intros y [<-|[]]. rewrite En. intros c Hc. cbn in Hc. repeat split; intros ->; repeat destruct Hc as [Hc|Hc]; try discriminate; auto.
        + intros _ _ y [<-|[]]. split; [auto|congruence].
      - destruct (Z.eqb_spec k 0) as [|Hk0]; [lia|]. destruct (Z.leb_spec k (Z.of_nat (length fixed))); [lia|].
        destruct (farhat_main (Z.to_nat (k - Z.of_nat (length fixed))) None fixed hr Hokr) as
          (h' & K & T & E & Hd & HK & Ez & LT & Hkeep & Hnames & _).
        { lia. }
        { rewrite Efr. intros K. rewrite K in Ec. cbn in Ec. congruence. }
        exists h', K, T. split; [exact E|]. split; [exact Hd|]. split; [exact Ez|]. split; [exact HK|].
        split; [exact Hkeep|]. split; [rewrite LT; lia|]. split.
        + intros z Hz. apply In_nth_error in Hz as (i & Hi). rewrite (Hnames i z Hi).
          intros c Hc. apply in_app_or in Hc as [Hc|Hc].
          * cbn in Hc. repeat split; intros ->; repeat destruct Hc as [Hc|Hc]; try discriminate; auto.
          * pose proof (N_str_digits (N.of_nat i)) as G. rewrite forallb_forall in G. apply G in Hc.
            repeat split; intros ->; vm_compute in Hc; discriminate.
        + intros -> ->. discriminate. }
    destruct D as (h' & K & T & E & Hd & Ez & HK & Hkeep & LT & Hpl & Hmono).
    assert (HK' : forall z, In z K -> In z (g_zones hl)).
    { intros z Hz. rewrite <- Egr. apply (sublist_In _ _ _ _ z HK). exact Hz. }
    assert (Hz : forall z, In z (g_zones h') -> plain_name (z_name h' z)).
    { intros z Hz. rewrite Ez in Hz. apply in_app_or in Hz as [Hz|Hz]; [|auto].
      destruct (Hkeep z Hz) as [_ ->]. rewrite Enr. apply Hzn. auto. }
    destruct (split_state text h hl rf hr h' evs El Hf Nd Nf Hr Hd Hz) as (A & B & C & D & W & R).
    destruct (write_ok t h' Hn A B C W Ht) as (out & Wo).
    exists out, h', K, T. split; [eapply split_go; eauto|].
    split; [apply A|]. split; [auto|]. split; [auto|]. split; [eapply named_data; eauto|].
    split; [rewrite <- Ezr, <- Enr; exact Hkeep|]. split; auto.
  Qed.

  Lemma named_count : forall h fixed K, zones_named h fixed K -> NoDup fixed -> NoDup (map (z_name h) (g_zones h)) ->
    (forall nm, In nm fixed -> In nm (map (z_name h) (g_zones h))) -> length K = length fixed.
  Proof.
    intros h fixed K HK N1 N2 H.
    assert (NK : NoDup (map (z_name h) K)).
    { clear H N1. unfold zones_named in HK. induction HK as [|x l l' Hx HK IH|x l l' Hx HK IH].
      - constructor.
      - cbn in *. inversion N2 as [|? ? Hn Nd]. subst. constructor; auto. intros Hin. apply Hn.
        apply in_map_iff in Hin as (y & <- & Hy). apply in_map. apply (sublist_In _ _ _ _ y HK). auto.
      - cbn in N2. inversion N2. auto. }
    rewrite <- (map_length (z_name h) K).
    assert (I1 : incl (map (z_name h) K) fixed).
    { intros nm Hin. apply in_map_iff in Hin as (z & <- & Hz). apply (sublist_In _ _ _ _ z HK) in Hz. tauto. }
    assert (I2 : incl fixed (map (z_name h) K)).
    { intros nm Hin. pose proof (H nm Hin) as Hz. apply in_map_iff in Hz as (z & <- & Hz). apply in_map.
      apply (sublist_In _ _ _ _ z HK). auto. }
    pose proof (NoDup_incl_length NK I1). pose proof (NoDup_incl_length N1 I2). lia.
  Qed.

  Lemma split_count_main : forall text strat fixed k rf t h hl evs,
    faithful_numbers -> file_form [] (file_lines text) evs -> no_degenerate (zones_of evs) ->
    faces_in (zones_of evs) <> 0 -> load true text (new_grid h) = (Ok tt, hl) ->
    asks strat "n"%char k -> (Z.of_nat (length fixed) < k)%Z ->
    (forall nm, In nm fixed -> In nm (map (z_name hl) (g_zones hl))) -> t <> ToNothing ->
    NoDup fixed -> NoDup (map (z_name hl) (g_zones hl)) ->
    exists out h', split (Some text) (lit ".dat") strat fixed rf t h = (Ok out, h') /\
      Z.of_nat (length (g_zones h')) = k.
  Proof.
    intros text strat fixed k rf t h hl evs Hn Hf Nd Nf El Ha Hk Hfx Ht N1 N2.
    destruct (split_exact_main text strat fixed k rf t h hl evs Hn Hf Nd Nf El Ha Hk Hfx Ht)
      as (out & h' & K & T & E & _ & _ & Ez & HK & _ & LT & _).
    exists out, h'. split; [auto|]. rewrite Ez, app_length, (named_count hl fixed K HK N1 N2 Hfx). lia.
  Qed.

  (** C30, strategy h<n>. *)
  Lemma split_hier_main : forall text sf strat fixed n rf t h out h' evs, order_ok ->
    file_form [] (file_lines text) evs -> no_degenerate (zones_of evs) ->
    asks strat "h"%char n ->
    split (Some text) sf strat fixed rf t h = (Ok out, h') ->
    exists hl K N, load true text (new_grid h) = (Ok tt, hl) /\ g_zones h' = K ++ N /\
      zones_named hl fixed K /\ (forall z, In z K -> z_faces h' z = z_faces hl z /\ z_name h' z = z_name hl z) /\
      (0 <= n)%Z /\ (Z.of_nat (length N) <= 2 ^ n)%Z /\ zones_ok h' /\ zone_lists_ok h' /\
      (fixed = [] -> n = 0%Z -> exists z, N = [z] /\ z_name h' z = lit "mono" /\ z_faces h' z = g_faces h').
  Proof.
    intros text sf strat fixed n rf t h out h' evs Ho Hf Nd Ha E.
    apply split_inv in E as (_ & E & _).
    apply split_decompose_inv in E as (hl & hr & st & El & Hfx & Hr & Hp & E).
    apply parse_h in Ha. rewrite Ha in Hp. injection Hp as <-.
    destruct (loaded_good _ _ _ _ El Hf Nd) as (Hok & _). pose proof (completed_ok _ _ _ Hr Hok) as Hokr.
    pose proof (decompose_by_decomposed _ _ _ _ Hokr Ho E) as Hd.
    assert (Ezr : z_faces hr = z_faces hl) by (destruct Hr as [K _]; rewrite K; reflexivity).
    assert (Enr : z_name hr = z_name hl) by (destruct Hr as [K _]; rewrite K; reflexivity).
    destruct Hd as (M & _ & Zo & Zl & _).
    unfold decompose_by in E. cbn [one_domain] in E.
    destruct ((n =? 0)%Z && match fixed with [] => true | _ => false end) eqn:E1.
    - apply andb_true_iff in E1 as [E1 E2]. apply Z.eqb_eq in E1. destruct fixed; [|discriminate].
      destruct (mono_ok None hr Hokr) as (h2 & z & E' & _ & Ez & En & Efz & _).
      rewrite E in E'. injection E' as <-. exists hl, [], [z]. split; [auto|]. split; [auto|].
      split; [apply zones_named_none|]. split; [intros ? []|]. split; [lia|]. subst n. split; [cbn; lia|].
      split; [auto|]. split; [auto|]. intros _ _. exists z. split; auto. split; auto.
      apply mesh_fields in M. decompose [and] M. congruence.
    - destruct (hier_keeps axis_signs (Z.to_nat (n + 1)) None fixed hr h' Ho axis_signs_mesh Hokr E)
        as (K & N & HK & Ez & LN & L1 & Hkeep & _).
      exists hl, K, N. split; [auto|]. split; [auto|]. split; [eapply named_data; eauto|].
      split; [rewrite <- Ezr, <- Enr; exact Hkeep|]. split; [lia|]. split.
      { assert (Hn0 : (0 <= n)%Z) by lia. replace (Z.to_nat (n + 1) - 1) with (Z.to_nat n) in LN by lia.
        apply Nat2Z.inj_le in LN. rewrite Nat2Z.inj_pow, Z2Nat.id in LN by lia. exact LN. }
      split; [auto|]. split; [auto|]. intros -> ->. discriminate.
  Qed.

  (** C30, rejected requests. *)
  Lemma split_accepts_main : forall text sf strat fixed rf t h out h',
    split text sf strat fixed rf t h = (Ok out, h') ->
    exists s hl n, text = Some s /\ sf = lit ".dat" /\ load true s (new_grid h) = (Ok tt, hl) /\
      (forall nm, In nm fixed -> In nm (map (z_name hl) (g_zones hl))) /\ t <> ToNothing /\
      (asks strat "h"%char n \/ asks strat "n"%char n /\ (Z.of_nat (length fixed) < n)%Z).
  Proof.
    intros [text|] sf strat fixed rf t h out h' E; [|discriminate].
    apply split_inv in E as (-> & E & W).
    apply split_decompose_inv in E as (hl & hr & st & El & Hfx & Hr & Hp & E).
    destruct st as [n|n]; exists text, hl, n; (split; [auto|]; split; [auto|]; split; [auto|]; split; [auto|];
      split; [intros ->; discriminate|]).
    - left. apply parse_h. auto.
    - right. split; [apply parse_n; auto|]. unfold decompose_by in E. cbn [one_domain] in E.
      destruct ((n =? 1)%Z && match fixed with [] => true | _ => false end) eqn:E1.
      + apply andb_true_iff in E1 as [E1 E2]. apply Z.eqb_eq in E1. destruct fixed; [|discriminate]. cbn. lia.
      + destruct (n =? 0)%Z; [discriminate|]. destruct (Z.leb_spec n (Z.of_nat (length fixed))); [discriminate|lia].
  Qed.

  Lemma split_raises_main : forall text strat fixed rf t h hl, load true text (new_grid h) = (Ok tt, hl) ->
    (exists nm, In nm fixed /\ ~ In nm (map (z_name hl) (g_zones hl))) \/
    (exists c s, strat = c :: s /\ c <> "h"%char /\ c <> "n"%char) \/
    (exists k, asks strat "n"%char k /\ (k <= Z.of_nat (length fixed))%Z) ->
    fst (split (Some text) (lit ".dat") strat fixed rf t h) = Raise EException.
  Proof.
    intros text strat fixed rf t h hl El H.
    assert (Es : exists h', split_decompose text strat fixed rf h = (Raise EException, h')).
    { assert (D : (forall nm, In nm fixed -> In nm (map (z_name hl) (g_zones hl))) \/
                exists nm, In nm fixed /\ ~ In nm (map (z_name hl) (g_zones hl))).
      { clear H. induction fixed as [|x fixed IH]; [left; intros ? []|].
        destruct (in_dec str_dec x (map (z_name hl) (g_zones hl))) as [Hx|Hx].
        - destruct IH as [IH|(nm & H1 & H2)]; [left; intros nm [<-|K]; auto|right; exists nm; simpl; auto].
        - right. exists x. simpl. auto. }
      destruct D as [D|(nm & H1 & H2)].
      - destruct (split_decompose_run text strat fixed rf h hl El D) as (hr & Hr & E).
        rewrite E. exists hr. destruct H as [(nm & H1 & H2)|[(c & s & -> & H1 & H2)|(k & Ha & Hk)]].
        + exfalso. auto.
        + unfold parse_strategy. change (py_get (c :: s) 0) with (Ok c). cbn [rbind].
          destruct (Ascii.eqb_spec c "h"%char); [contradiction|]. destruct (Ascii.eqb_spec c "n"%char); [contradiction|].
          reflexivity.
        + apply parse_n in Ha. rewrite Ha, bind_lift_ok. unfold decompose_by. cbn [one_domain].
          destruct ((k =? 1)%Z && match fixed with [] => true | _ => false end) eqn:E1.
          { apply andb_true_iff in E1 as [E1 E2]. apply Z.eqb_eq in E1. destruct fixed; [|discriminate]. cbn in Hk. lia. }
          destruct (k =? 0)%Z; [reflexivity|]. destruct (Z.leb_spec k (Z.of_nat (length fixed))); [reflexivity|lia].
      - exists hl. unfold split_decompose. rewrite bind_modify, (bind_run _ _ _ _ _ _ _ El).
        rewrite (bind_raise _ _ _ _ _ _ _ (check_bad fixed hl nm H1 H2)). reflexivity. }
    destruct Es as (h' & Es). unfold split. change (str_eqb (lit ".dat") (lit ".dat")) with true. cbn match.
    rewrite (bind_raise _ _ _ _ _ _ _ Es). reflexivity.
  Qed.
End Split.
