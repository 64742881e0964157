(** Proofs about the decomposition of a grid file. *)

From Coq Require Import ZArith Ascii String Bool Lia List Permutation.
From Verif Require Import Py PyLemmas Heap HeapLemmas GridModel GridSpec DecompSpec DecompProofs AssignProofs PartialZones SimpleDecomp DecompMain MpiSpec GridIO FileSpec StoreSpec LoadParse
  LoadPlace LoadMain LoadFresh LoadProps RoundTrip PlainProofs SamplesStore Driver DriverSpec MergeProofs StrategyProofs AtomicSeq CycleProofs Import CalcProofs Redivide RedivideSpec.
Import ListNotations.
Open Scope list_scope.
Open Scope nat_scope.

Section RedivideProofs.
  Context {F : FloatOps}.

  (** Names of zones after a decomposition that returns. *)
  Lemma zone_names_after : forall nm d h h', grid_ok h -> g_faces h <> [] -> decomposition nm d -> d h = (Ok tt, h') ->
    (forall z, In z (g_zones h) -> plain_name (z_name h z)) ->
    decomposed h h' nm /\ forall z, In z (g_zones h') -> plain_name (z_name h' z).
  Proof.
    intros nm d h h' Hg Ne Hd E Hp. assert (D : decomposed h h' nm).
    { inversion Hd; subst; eauto using mono_returns, random_returns, linear_returns, farhat_returns, hier_returns. }
    split; [exact D|]. intros y Hy. destruct Hd as [|rand count|count|count names|fns levels names Ho Hs].
    - destruct (mono_ok nm h Hg) as (h1 & z & E1 & _ & Ez & En & _). rewrite E in E1. injection E1 as <-.
      rewrite Ez in Hy. destruct Hy as [<-|[]]. rewrite En. apply mono_name.
    - destruct (Nat.eq_dec count 0) as [->|Hc].
      + exfalso. destruct (rename_ok nm h Hg) as (h0 & E0 & G0 & M0 & N0 & _).
        unfold decompose_random in E. rewrite (bind_run _ _ _ _ _ _ _ E0), bind_modify in E.
        destruct (prologue_ok (lit "random ") 0 h0 G0) as (h1 & h2 & E1 & E2 & Em2 & _).
        rewrite (bind_run _ _ _ _ _ _ _ E1), (bind_run _ _ _ _ _ _ _ E2), bind_gets in E.
        apply bind_inv in E as ([] & h3 & H3 & _).
        destruct (g_faces h2) as [|f l] eqn:Ef; [|cbn in H3; discriminate H3]. apply Ne.
        assert (g_faces h2 = g_faces h) by (apply mesh_fields in Em2; apply mesh_fields in M0; decompose [and] Em2; decompose [and] M0; congruence). congruence.
      + destruct (random_ok rand count nm h Hg Hc) as (h1 & E1 & _ & _ & En & _). rewrite E in E1. injection E1 as <-.
        apply In_nth_error in Hy as (i & Hi). rewrite (En i y Hi). apply numbered_name. reflexivity.
    - destruct (Nat.eq_dec count 0) as [->|Hc].
      + exfalso. unfold decompose_linear in E. apply bind_inv in E as ([] & h1 & _ & E). cbn in E. discriminate E.
      + destruct (linear_main count nm h Hg Hc) as (h1 & E1 & _ & _ & _ & En & _). rewrite E in E1. injection E1 as <-.
        apply In_nth_error in Hy as (i & Hi). rewrite (En i y Hi). apply numbered_name. reflexivity.
    - destruct (Nat.eq_dec count 0) as [->|Hc].
      + destruct (fixed_prologue names nm h Hg)
          as (h1 & h2 & h4 & E1 & E2 & E4 & M4 & Nm4 & Gz4 & Zf4 & Zn4 & Nz4 & P4 & Gz3 & Fx4).
        unfold decompose_farhat in E. rewrite (bind_run _ _ _ _ _ _ _ E1), (bind_run _ _ _ _ _ _ _ E2) in E.
        unfold keep_fixed at 1 in E. rewrite bind_modify, bind_gets in E.
        rewrite (bind_run _ _ _ _ _ _ _ E4) in E.
        destruct (create_zones_ok (lit "farhat ") 0 h4) as (h5 & E5 & _).
        assert (h5 = h4) by (unfold create_zones in E5; cbn in E5; injection E5 as <-; auto). subst h5.
        rewrite (bind_run _ _ _ _ _ _ _ E5), !bind_gets in E.
        apply bind_inv in E as (s & h6 & H6 & E). injection H6 as _ <-.
        cbn [farhat_zones] in E. rewrite bind_ret in E.
        pose proof (post_assigned _ _ E) as Ha.
        destruct (finish' h h4 nm) as (h7 & E7 & D7 & Z7 & _ & N7 & _); auto.
        * apply Hg.
        * apply pzones_total; auto. destruct (free h4) as [|f l] eqn:Ef; auto. exfalso.
          assert (Hf : In f (free h4)) by (rewrite Ef; simpl; auto).
          apply free_In in Hf as [Hf Hn]. apply (Ha f); auto.
        * rewrite E in E7. injection E7 as <-. rewrite N7, Zn4. apply Hp. rewrite Z7, Gz4 in Hy.
          apply (named_In h names (kept h names)); [apply kept_named|exact Hy].
      + destruct (farhat_main count nm names h Hg Hc Ne) as (h1 & K & T & E1 & _ & HK & Ez & _ & Ek & En & _). rewrite E in E1. injection E1 as <-.
        rewrite Ez in Hy. apply in_app_or in Hy as [Hy|Hy].
        * rewrite (proj2 (Ek y Hy)). apply Hp. eapply named_In; eauto.
        * apply In_nth_error in Hy as (i & Hi). rewrite (En i y Hi). apply numbered_name. reflexivity.
    - destruct (hier_keeps _ _ _ _ h h' Ho Hs Hg E) as (K & N & HK & Ez & _ & _ & Ek & En & _).
      rewrite Ez in Hy. apply in_app_or in Hy as [Hy|Hy].
      + rewrite (proj2 (Ek y Hy)). apply Hp. eapply named_In; eauto.
      + destruct (En y Hy) as (w & -> & Hw). apply hier_name; auto.
  Qed.

  (** Values by name. *)
  Lemma value_dict : forall vars row v, NoDup vars -> length row = length vars ->
    match dget str_dec (dict_of str_dec (combine vars row)) v with Some x => x | None => val0 end = value_of vars row v.
  Proof.
    intros vars row v Nd L. rewrite dict_of_nodup by auto. clear Nd. revert row L.
    induction vars as [|w vars IH]; intros [|x row] L; try discriminate L; [reflexivity|]. cbn.
    destruct (str_dec v w); [reflexivity|]. apply IH. cbn in L. lia.
  Qed.

  Lemma value_back : forall (g : str -> val) vars l, incl l vars -> map (value_of vars (map g vars)) l = map g l.
  Proof.
    intros g vars l Hi. apply map_ext_in. intros v Hv. apply Hi in Hv. clear Hi l. induction vars as [|w vars IH]; [destruct Hv|]. cbn.
    destruct (str_dec v w) as [->|D]; [reflexivity|]. apply IH. destruct Hv as [->|Hv]; [contradiction|exact Hv].
  Qed.

  (** The entry of a face in the list of a file. *)
  Definition entry (vars : list str) (h : heap) (f : nat) : list (option rc) * list val :=
    (map Some (map (n_rc h) (f_nodes h f)), map (var_value h f) vars).

  Lemma listed_flat : forall vars zs,
    listed vars zs = map (fun x => (map (option_map rnd) (snd x), map (value_of (fst (fst x)) (snd (fst x))) vars)) (flat zs).
  Proof.
    intros vars zs. unfold listed, flat. induction zs as [|zr zs IH]; [reflexivity|]. cbn [flat_map]. rewrite map_app, map_map, IH. reflexivity.
  Qed.

  Lemma loaded_listed : forall vars zs h, (forall zr, In zr zs -> zone_rec_ok zr /\ NoDup (zr_vars zr)) -> holds_zones zs h ->
    listed vars zs = map (entry vars h) (g_faces h).
  Proof.
    intros vars zs h Hz Hh.
    assert (Hl : forall zr, In zr zs -> length (zr_data zr) = length (zr_conn zr)).
    { intros zr H. destruct (Hz zr H) as [(Q & _) _]. symmetry. exact Q. }
    pose proof (holds_flat _ _ Hl Hh) as F2. rewrite listed_flat.
    assert (Hx : forall x, In x (flat zs) -> NoDup (fst (fst x)) /\ length (snd (fst x)) = length (fst (fst x))).
    { intros x H. unfold flat in H. apply in_flat_map in H as (zr & H1 & H2). apply in_map_iff in H2 as (rt & <- & H2). cbn [fst snd].
      destruct (Hz zr H1) as [(_ & Q & _) Nd]. split; [exact Nd|]. apply Q. destruct rt as [row t]. exact (in_combine_l _ _ _ _ H2). }
    clear Hz Hh Hl. induction F2 as [|f x fs xs [D C] F2 IH]; [reflexivity|]. cbn [map]. f_equal.
    - unfold entry. f_equal.
      + clear - C. induction C as [|o n os ns (p & -> & E) C IH]; [reflexivity|]. cbn. rewrite E. f_equal. exact IH.
      + apply map_ext. intros v. unfold var_value. rewrite D. symmetry. apply value_dict; apply (Hx x (or_introl eq_refl)).
    - apply IH. intros y Hy. apply Hx. right. exact Hy.
  Qed.

  Lemma stored_listed : forall h vars zs, grid_ok h -> nodes_merged h -> Forall2 (describes h vars) (g_zones h) zs ->
    listed vars zs = map (entry vars h) (flat_map (z_faces h) (g_zones h)).
  Proof.
    intros h vars zs Hok Hm Hd.
    assert (Hf : forall z f, In z (g_zones h) -> In f (z_faces h z) -> In f (g_faces h)).
    { intros z f H1 H2. apply (proj1 (zo_faces _ (proj2 Hok) z f H1)). exact H2. }
    unfold listed. revert Hf. induction Hd as [|z zr l l' (_ & Ev & _ & Ed & Ec) Hd IH]; intros Hf; [reflexivity|]. cbn [flat_map]. rewrite map_app. f_equal.
    - rewrite Ed, Ev. assert (Hz : forall f, In f (z_faces h z) -> In f (g_faces h)) by (intros f Q; apply (Hf z f (or_introl eq_refl) Q)). clear - Ec Hz Hok Hm.
      induction Ec as [|f t fs ts E Ec IH]; [reflexivity|]. cbn [map combine fst snd]. f_equal.
      + unfold entry. f_equal.
        * rewrite E, !map_map. apply map_ext_in. intros n Hn. cbn. f_equal. symmetry. destruct Hm as (_ & _ & Hm). apply Hm.
          apply (t_face_nodes _ (proj1 Hok) f (Hz f (or_introl eq_refl))). exact Hn.
        * apply value_back. apply incl_refl.
      + apply IH. intros g Hg. apply Hz. right. exact Hg.
    - apply IH. intros z' f H1 H2. apply (Hf z' f (or_intror H1) H2).
  Qed.

  Lemma first_vars_loaded : forall zs h, (forall zr, In zr zs -> zone_rec_ok zr /\ NoDup (zr_vars zr)) -> holds_zones zs h -> g_faces h <> [] ->
    grid_vars h = first_vars zs.
  Proof.
    intros zs h Hz (L & Eg & H) Ne. unfold grid_vars. revert Eg H Ne. generalize (g_faces h). revert zs Hz L. induction (g_zones h) as [|z l IH]; intros [|zr zs] Hz L fs Eg H Ne; try discriminate L.
    - contradiction.
    - cbn [flat_map] in Eg. destruct (H 0 z zr eq_refl eq_refl) as (_ & Lf & Hf). destruct (Hz zr (or_introl eq_refl)) as [(Lc & Lr & _) Nd].
      cbn [first_vars]. destruct (z_faces h z) as [|f r] eqn:Ef.
      + destruct (zr_conn zr); [|discriminate Lf]. cbn [app] in Eg. apply IH; auto.
        * intros zr' Q. apply Hz. right. exact Q.
        * intros i. apply (H (S i)).
      + destruct (zr_conn zr) as [|t ts] eqn:Et; [discriminate Lf|]. rewrite Eg. cbn [app]. destruct (Hf 0 f eq_refl) as (_ & row & t' & R1 & _ & D & _).
        assert (Q : length row = length (zr_vars zr)) by (apply Lr; apply (nth_error_In _ _ R1)).
        rewrite D, dict_of_nodup by auto.
        unfold keys. clear - Q. revert row Q. induction (zr_vars zr) as [|x v IH]; intros [|y row] Q; try discriminate Q; [reflexivity|].
        cbn. f_equal. apply IH. cbn in Q. lia.
  Qed.

  Lemma title_of_map : forall s (l : list zone_rec), title_in (ETitle s :: map EZone l) = Some s.
  Proof.
    intros s l. unfold title_in. cbn [fold_left]. induction l as [|x l IH]; [reflexivity|]. cbn. exact IH.
  Qed.

  Theorem redivided : forall nm d text h hl h2 evs, faithful_numbers -> load true text h = (Ok tt, hl) ->
    file_form [] (file_lines text) evs -> no_degenerate (zones_of evs) -> faces_in (zones_of evs) <> 0 ->
    (forall zr, In zr (zones_of evs) -> NoDup (zr_vars zr)) ->
    decomposition nm d -> d hl = (Ok tt, h2) ->
    (forall s, nm = Some s -> plain_name s) -> (nm = None -> title_in evs <> None \/ plain_name (g_name h)) ->
    exists out evs', redivide d text h = (Ok out, h2) /\ file_form [] (file_lines out) evs' /\
      title_in evs' = Some (match nm with Some s => s | None => g_name hl end) /\
      map zr_name (zones_of evs') = map (z_name h2) (g_zones h2) /\
      map (fun zr => length (zr_conn zr)) (zones_of evs') = map (fun z => length (z_faces h2 z)) (g_zones h2) /\
      (forall zr, In zr (zones_of evs') -> zr_vars zr = first_vars (zones_of evs)) /\
      incl (all_pts (zones_of evs')) (all_pts (zones_of evs)) /\
      Permutation (listed (first_vars (zones_of evs)) (zones_of evs')) (listed (first_vars (zones_of evs)) (zones_of evs)).
  Proof.
    intros nm d text h hl h2 evs Hn El Hf Nd Nf Nv Hd Ed Hs Ht.
    destruct (loaded_good _ _ _ _ El Hf Nd) as (Hok & Hl & Hnb & Hm).
    destruct (loaded_names _ _ _ _ _ El Hf) as (Hzn & Hv & Hp).
    destruct (load_result _ _ _ _ _ El Hf) as [Ld _]. pose proof (faces_count _ _ (ld_zones _ _ _ Ld)) as Ec.
    assert (Ne : g_faces hl <> []) by (intros K; rewrite K in Ec; cbn in Ec; congruence).
    assert (Hzr : forall zr, In zr (zones_of evs) -> zone_rec_ok zr /\ NoDup (zr_vars zr)).
    { intros zr H. split; [exact (file_form_ok _ _ _ Hf zr H)|apply Nv; exact H]. }
    destruct (zone_names_after nm d hl h2 Hok Ne Hd Ed Hzn) as [(M & Nm & Zk & Lk & _) Pz].
    destruct (partition_ok nm d hl h2 Hok Hd Ed) as (_ & _ & _ & Pm & _).
    assert (Ht2 : topo_ok h2) by (eapply topo_mesh; [exact M|apply Hok]).
    pose proof (numbered_mesh _ _ M Hnb) as Hn2. pose proof (merged_mesh _ _ M Hm) as Hm2.
    assert (Fs : g_faces h2 = g_faces hl /\ f_data h2 = f_data hl /\ n_p h2 = n_p hl /\ n_rc h2 = n_rc hl /\ f_nodes h2 = f_nodes hl /\ g_nodes h2 = g_nodes hl).
    { apply mesh_fields in M. decompose [and] M. repeat split; congruence. }
    destruct Fs as (A1 & A2 & A3 & A4 & A5 & A6).
    assert (Gv : grid_vars h2 = grid_vars hl) by (unfold grid_vars; rewrite A1, A2; reflexivity).
    assert (Hw : writable h2).
    { split; [rewrite A1; exact Ne|]. split; [rewrite Nm; destruct nm as [s|]; auto|]. split; [exact Pz|].
      rewrite Gv. unfold grid_vars. destruct (g_faces hl) as [|f fs]; [contradiction|]. apply Hv. left. reflexivity. }
    destruct (store_form h2 Hn (conj Ht2 Zk) Lk Hn2 Hw) as (out & zs & Es & De & Hff).
    exists out, (ETitle (g_name h2) :: map EZone zs). split.
    { unfold redivide. rewrite (bind_run _ _ _ _ _ _ _ El), (bind_run _ _ _ _ _ _ _ Ed), bind_gets. cbv beta. rewrite Es. reflexivity. }
    split; [exact Hff|]. split; [rewrite title_of_map, Nm; reflexivity|]. rewrite zones_of_map.
    rewrite <- (first_vars_loaded _ _ Hzr (ld_zones _ _ _ Ld) Ne).
    split; [|split; [|split; [|split]]].
    - clear - De. induction De as [|z zr l l' (E & _) De IH]; [reflexivity|]. cbn. f_equal; auto.
    - clear - De. induction De as [|z zr l l' (_ & _ & _ & _ & E) De IH]; [reflexivity|]. cbn. f_equal; [|exact IH]. clear - E. induction E; cbn; auto.
    - intros zr Q. rewrite <- Gv. clear - De Q. induction De as [|z zr' l l' (_ & E & _) De IH]; [destruct Q|]. destruct Q as [->|Q]; auto.
    - intros p Hp'. unfold all_pts in Hp'. apply in_flat_map in Hp' as (zr & Q1 & Q2).
      assert (Q : exists z, In z (g_zones h2) /\ zr_pts zr = map (n_p h2) (z_nodes h2 z)).
      { clear - De Q1. induction De as [|z zr' l l' (_ & _ & E & _) De IH]; [destruct Q1|]. destruct Q1 as [->|Q1]; [exists z; split; [left; auto|exact E]|].
        destruct (IH Q1) as (z' & I1 & I2). exists z'. split; [right; auto|auto]. }
      destruct Q as (z & Hz & E). rewrite E in Q2. apply in_map_iff in Q2 as (n & <- & Hnn).
      destruct (Lk z Hz) as [S1 _]. apply (DecompProofs.sublist_In _ _ _ _ n S1) in Hnn as [Hnn _]. rewrite A6 in Hnn. rewrite A3.
      assert (Q : In (n_p hl n) (firsts (all_pts (zones_of evs)))) by (rewrite <- (ld_pts _ _ _ Ld); apply in_map; exact Hnn).
      apply firsts_in in Q as (u & w & Eu & _). rewrite Eu. apply in_app_iff. right. left. reflexivity.
    - rewrite <- Gv. rewrite (stored_listed h2 (grid_vars h2) zs (conj Ht2 Zk) Hm2 De). rewrite (loaded_listed (grid_vars h2) _ _ Hzr (ld_zones _ _ _ Ld)).
      rewrite flat_map_concat_map. rewrite <- (map_ext (entry (grid_vars h2) h2) (entry (grid_vars h2) hl)).
      + apply Permutation_map. exact Pm.
      + intros f. unfold entry, var_value. rewrite A2, A4, A5. reflexivity.
  Qed.

  (** When all zones have the same variables, the rows are as they were. *)
  Lemma listed_same : forall vars zs, NoDup vars -> (forall zr, In zr zs -> zone_rec_ok zr /\ zr_vars zr = vars) ->
    listed vars zs = listed_rows zs.
  Proof.
    intros vars zs Nd. induction zs as [|zr zs IH]; intros H; [reflexivity|]. unfold listed, listed_rows in *. cbn [flat_map]. f_equal.
    - apply map_ext_in. intros [row t] Hin. cbn [fst snd]. f_equal. destruct (H zr (or_introl eq_refl)) as [(_ & Lr & _) Ev].
      assert (L : length row = length vars) by (rewrite <- Ev; apply Lr; exact (in_combine_l _ _ _ _ Hin)). rewrite Ev. clear - L Nd.
      revert row L. induction Nd as [|v vars Hv Nd IH]; intros [|x row] L; try discriminate L; [reflexivity|]. cbn [map value_of]. destruct (str_dec v v) as [_|K]; [|contradiction]. f_equal.
      transitivity (map (value_of vars row) vars); [|apply IH; cbn in L; lia].
      apply map_ext_in. intros w Hw. cbn. destruct (str_dec w v) as [->|_]; [contradiction|reflexivity].
    - apply IH. intros zr' Q. apply H. right. exact Q.
  Qed.

  Theorem redivided_same : forall nm d text h hl h2 evs vars, faithful_numbers -> load true text h = (Ok tt, hl) ->
    file_form [] (file_lines text) evs -> no_degenerate (zones_of evs) -> faces_in (zones_of evs) <> 0 ->
    NoDup vars -> (forall zr, In zr (zones_of evs) -> zr_vars zr = vars) ->
    decomposition nm d -> d hl = (Ok tt, h2) ->
    (forall s, nm = Some s -> plain_name s) -> (nm = None -> title_in evs <> None \/ plain_name (g_name h)) ->
    exists out evs', redivide d text h = (Ok out, h2) /\ file_form [] (file_lines out) evs' /\
      (forall zr, In zr (zones_of evs') -> zr_vars zr = vars) /\
      Permutation (listed_rows (zones_of evs')) (listed_rows (zones_of evs)).
  Proof.
    intros nm d text h hl h2 evs vars Hn El Hf Nd Nf Nv Hv Hd Ed Hs Ht.
    destruct (redivided nm d text h hl h2 evs Hn El Hf Nd Nf) as (out & evs' & E1 & F1 & _ & _ & _ & V1 & _ & P1); auto.
    { intros zr H. rewrite (Hv zr H). exact Nv. }
    assert (Fv : first_vars (zones_of evs) = vars).
    { clear - Nf Hv. induction (zones_of evs) as [|zr zs IH]; [contradiction Nf; reflexivity|]. cbn [first_vars].
      destruct (zr_conn zr) eqn:E; [|apply Hv; left; reflexivity]. apply IH; [|intros z Q; apply Hv; right; exact Q].
      intros K. apply Nf. unfold faces_in in *. cbn [map list_sum fold_right]. rewrite E. exact K. }
    rewrite Fv in V1, P1. exists out, evs'. split; [exact E1|]. split; [exact F1|]. split; [exact V1|].
    rewrite (listed_same vars (zones_of evs)), (listed_same vars (zones_of evs')) in P1; auto.
    - intros zr Q. split; [exact (file_form_ok _ _ _ F1 zr Q)|exact (V1 zr Q)].
    - intros zr Q. split; [exact (file_form_ok _ _ _ Hf zr Q)|exact (Hv zr Q)].
  Qed.

  Theorem redrawn : forall add rand text h hl evs, faithful_numbers -> load true text (new_grid h) = (Ok tt, hl) ->
    file_form [] (file_lines text) evs -> no_degenerate (zones_of evs) -> faces_in (zones_of evs) <> 0 ->
    (forall zr, In zr (zones_of evs) -> NoDup (zr_vars zr)) ->
    let vars := map lit ["T"; "Hw"; "Hi"]%string in
    exists out h' evs', redraw add rand text h = (Ok out, h') /\ file_form [] (file_lines out) evs' /\
      title_in evs' = Some (g_name hl) /\
      map zr_name (zones_of evs') = map zr_name (zones_of evs) /\
      map (fun zr => length (zr_conn zr)) (zones_of evs') = map (fun zr => length (zr_conn zr)) (zones_of evs) /\
      (forall zr, In zr (zones_of evs') -> zr_vars zr = vars) /\
      Forall2 (redrawn_entry add rand) (listed vars (zones_of evs)) (listed_rows (zones_of evs')).
  Proof.
    intros add rand text h hl evs Hn El Hf Nd Nf Nv vars.
    destruct (loaded_good _ _ _ _ El Hf Nd) as (Hok & Hl & Hnb & Hm).
    destruct (loaded_names _ _ _ _ _ El Hf) as (Hzn & Hv & Hp).
    destruct (load_result _ _ _ _ _ El Hf) as [Ld _]. pose proof (faces_count _ _ (ld_zones _ _ _ Ld)) as Ec.
    assert (Ne : g_faces hl <> []) by (intros K; rewrite K in Ec; cbn in Ec; congruence).
    assert (Hzr : forall zr, In zr (zones_of evs) -> zone_rec_ok zr /\ NoDup (zr_vars zr)).
    { intros zr H. split; [exact (file_form_ok _ _ _ Hf zr H)|apply Nv; exact H]. }
    destruct (calc_round add rand hl Hn (t_faces_nd _ (proj1 Hok)) (proj2 (proj2 (ld_num _ _ _ Ld)))) as (h3 & E3 & Eh & Hd & _).
    assert (Nvs : NoDup vars).
    { unfold vars. cbn [map]. repeat (constructor; [cbn; intros K; repeat destruct K as [K|K]; try discriminate K; auto|]). constructor. }
    assert (Hok3 : grid_ok h3) by (rewrite Eh; destruct Hok as [T Z]; split; [destruct T|destruct Z]; constructor; assumption).
    assert (Hl3 : zone_lists_ok h3) by (rewrite Eh; exact Hl).
    assert (Hn3 : numbered h3) by (rewrite Eh; exact Hnb).
    assert (Hm3 : nodes_merged h3) by (rewrite Eh; exact Hm).
    assert (Fs : g_faces h3 = g_faces hl /\ g_zones h3 = g_zones hl /\ z_faces h3 = z_faces hl /\ z_name h3 = z_name hl /\ g_name h3 = g_name hl /\
      n_rc h3 = n_rc hl /\ f_nodes h3 = f_nodes hl) by (rewrite Eh; repeat split).
    clear Eh. destruct Fs as (A1 & A2 & A3 & A4 & A5 & A6 & A7).
    assert (Gv : grid_vars h3 = vars).
    { unfold grid_vars. rewrite A1. destruct (g_faces hl) as [|f fs]; [contradiction|]. rewrite (Hd f (or_introl eq_refl)).
      unfold drawn. destruct (rand f) as [[r1 r2] r3]. reflexivity. }
    assert (Hw : writable h3).
    { split; [rewrite A1; exact Ne|]. split; [rewrite A5; apply Hp; right; intros c []|]. split; [rewrite A2, A4; exact Hzn|].
      rewrite Gv. split; [|exact Nvs]. unfold vars. cbn [map]. intros k Hk. cbn [In] in Hk. destruct Hk as [<-|[<-|[<-|[]]]]; apply plain_varb_ok; reflexivity. }
    destruct (store_form h3 Hn Hok3 Hl3 Hn3 Hw) as (out & zs & Es & De & Hff).
    exists out, h3, (ETitle (g_name h3) :: map EZone zs). split.
    { unfold redraw. rewrite bind_modify. cbv beta. rewrite (bind_run _ _ _ _ _ _ _ El), bind_gets. cbv beta. rewrite (bind_run _ _ _ _ _ _ _ E3), bind_gets. cbv beta.
      rewrite Es. reflexivity. }
    split; [exact Hff|]. split; [rewrite title_of_map, A5; reflexivity|]. rewrite zones_of_map.
    assert (Vz : forall zr, In zr zs -> zr_vars zr = vars).
    { intros zr Q. rewrite <- Gv. clear - De Q. induction De as [|z zr' l l' (_ & E & _) De IH]; [destruct Q|]. destruct Q as [->|Q]; auto. }
    destruct (ld_zones _ _ _ Ld) as (Lz & Eg & Hz).
    assert (Zs : map zr_name (zones_of evs) = map (z_name hl) (g_zones hl) /\
      map (fun zr => length (zr_conn zr)) (zones_of evs) = map (fun z => length (z_faces hl z)) (g_zones hl)).
    { clear - Lz Hz. revert Lz Hz. generalize (zones_of evs). induction (g_zones hl) as [|z l IH]; intros [|zr zs] L H; try discriminate L; [split; reflexivity|].
      destruct (H 0 z zr eq_refl eq_refl) as (E1 & E2 & _). destruct (IH zs) as [I1 I2]; [cbn in L; lia|intros i; apply (H (S i))|].
      cbn [map]. split; f_equal; auto. }
    destruct Zs as [Z1 Z2].
    split; [|split; [|split]].
    - rewrite Z1, <- A2, <- A4. clear - De. induction De as [|z zr l l' (E & _) De IH]; [reflexivity|]. cbn. f_equal; auto.
    - rewrite Z2, <- A2, <- A3. clear - De. induction De as [|z zr l l' (_ & _ & _ & _ & E) De IH]; [reflexivity|]. cbn. f_equal; [|exact IH]. clear - E. induction E; cbn; auto.
    - exact Vz.
    - assert (F3 : file_form [] (file_lines out) (ETitle (g_name h3) :: map EZone zs)) by exact Hff.
      rewrite <- (listed_same vars zs Nvs).
      2:{ intros zr Q. split; [|exact (Vz zr Q)]. apply (file_form_ok _ _ _ F3). rewrite zones_of_map. exact Q. }
      rewrite (loaded_listed vars _ _ Hzr (ld_zones _ _ _ Ld)). rewrite Gv in De. rewrite (stored_listed h3 vars zs Hok3 Hm3 De).
      rewrite A2, A3, <- Eg. clear - Hd A6 A7.
      assert (Hd' : forall f, In f (g_faces hl) -> redrawn_entry add rand (entry vars hl f) (entry vars h3 f)).
      { intros f Hin. unfold redrawn_entry, entry. cbn [fst snd]. rewrite A6, A7. split; [reflexivity|].
        destruct (rand f) as [[r1 r2] r3] eqn:Er. exists (var_value hl f (lit "T")), (var_value hl f (lit "Hw")), (var_value hl f (lit "Hi")), f, r1, r2, r3.
        split; [reflexivity|]. split; [exact Er|]. unfold vars. cbn [map]. unfold var_value at 1 2 3. rewrite (Hd f Hin). unfold drawn. rewrite Er. reflexivity. }
      clear - Hd'. induction (g_faces hl) as [|f fs IH]; [constructor|]. cbn [map]. constructor; [apply Hd'; left; reflexivity|]. apply IH. intros g Hg. apply Hd'. right. exact Hg.
  Qed.
End RedivideProofs.
