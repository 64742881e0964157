(** Proofs about the texts of the files for the solver written from a grid file. *)

From Coq Require Import ZArith Ascii String Bool Lia List Permutation.
From Verif Require Import Py PyLemmas Heap HeapLemmas GridModel GridSpec DecompSpec DecompProofs DecompMain AssignProofs Mpi MpiSpec MpiProofs
  GridIO FileSpec StoreSpec StoreProofs LoadParse LoadPlace LoadMain LoadProps PlainProofs SamplesStore Driver DriverSpec MergeProofs StrategyProofs CycleSpec CycleProofs
  Redivide RedivideProofs Solver SolverSpec SolverProofs.
Import ListNotations.
Open Scope list_scope.
Open Scope nat_scope.

Section SolverMain.
  Context {F : FloatOps}.

  Lemma concat_place : forall A (ls : list (list A)), NoDup (concat ls) -> forall i j a i' j' a' x,
    nth_error ls i = Some a -> nth_error a j = Some x -> nth_error ls i' = Some a' -> nth_error a' j' = Some x -> i = i' /\ j = j'.
  Proof.
    intros A ls. induction ls as [|l ls IH]; intros N i j a i' j' a' x H1 H2 H3 H4; [destruct i; discriminate H1|].
    cbn [concat] in N. apply NoDup_app_inv in N as (Nl & Nr & D).
    assert (Q : forall n b y k, nth_error ls n = Some b -> nth_error b k = Some y -> In y (concat ls)).
    { intros n b y k K1 K2. apply in_concat. exists b. split; [apply (nth_error_In _ _ K1)|apply (nth_error_In _ _ K2)]. }
    destruct i as [|i], i' as [|i']; cbn in H1, H3.
    - injection H1 as E1. injection H3 as E3. subst a a'. split; [reflexivity|].
      apply (proj1 (NoDup_nth_error l) Nl); [apply nth_error_Some; congruence|congruence].
    - injection H1 as E1. subst a. exfalso. apply (D x); [apply (nth_error_In _ _ H2)|apply (Q _ _ _ _ H3 H4)].
    - injection H3 as E3. subst a'. exfalso. apply (D x); [apply (nth_error_In _ _ H4)|apply (Q _ _ _ _ H1 H2)].
    - destruct (IH Nr _ _ _ _ _ _ _ H1 H2 H3 H4) as [E1 E2]. auto.
  Qed.

  (** All faces of the grid are in the files, with their corners and data, each at one place. *)
  Lemma stored_every : forall h ms, grid_ok h -> zone_lists_ok h -> numbered h -> store_mpi_files h = Ok ms ->
    (forall i m j i' m' j' g, nth_error ms i = Some m -> nth_error (mf_gloids m) j = Some g ->
      nth_error ms i' = Some m' -> nth_error (mf_gloids m') j' = Some g -> i = i' /\ j = j') /\
    (forall i m, nth_error ms i = Some m -> mf_mpi m = i /\ exists z, nth_error (g_zones h) i = Some z /\ mf_title m = z_name h z) /\
    (forall i m j g, nth_error ms i = Some m -> nth_error (mf_gloids m) j = Some g -> exists k, k < length (g_faces h) /\ g = Z.of_nat k) /\
    forall f, In f (g_faces h) -> exists i m j, nth_error ms i = Some m /\
      cry_face m j (f_glo h f) (map (n_p h) (f_nodes h f)) /\ cry_data m j (f_data h f).
  Proof.
    intros h ms Hg Hl Hn Em. destruct (mpi_cover_main h Hg Hl Hn) as (ms' & Em' & Lm & Pm & Hz).
    rewrite Em in Em'. injection Em' as E. subst ms'. destruct Hg as [Ht Hzo]. split; [|split; [|split]].
    - assert (N : NoDup (concat (map mf_gloids ms))).
      { apply (Permutation_NoDup (Permutation_sym Pm)). apply FinFun.Injective_map_NoDup; [intros a b; apply Nat2Z.inj|apply seq_NoDup]. }
      intros i m j i' m' j' g H1 H2 H3 H4.
      exact (concat_place _ _ N _ _ _ _ _ _ _ (map_nth_error mf_gloids _ _ H1) H2 (map_nth_error mf_gloids _ _ H3) H4).
    - intros i m Hi. assert (Li : i < length (g_zones h)) by (rewrite <- Lm; apply nth_error_Some; congruence).
      destruct (nth_error (g_zones h) i) as [z|] eqn:Ez; [|apply nth_error_None in Ez; lia].
      destruct (Hz i z m Ez Hi) as (T & M & _). split; [exact M|]. exists z. split; [reflexivity|exact T].
    - intros i m j g Hi Hj. assert (Q : In g (concat (map mf_gloids ms))).
      { apply in_concat. exists (mf_gloids m). split; [apply in_map; apply (nth_error_In _ _ Hi)|apply (nth_error_In _ _ Hj)]. }
      apply (Permutation_in _ Pm) in Q. apply in_map_iff in Q as (k & Q1 & Q2). apply in_seq in Q2. exists k. split; [lia|auto].
    - intros f Hf. destruct (zo_cover _ Hzo f Hf) as (z & Iz & Fz). assert (If : In f (z_faces h z)) by (apply (zo_faces _ Hzo z f Iz); auto).
      apply In_nth_error in Iz as (i & Ez). apply In_nth_error in If as (j & Ej).
      assert (Li : i < length ms) by (rewrite Lm; apply nth_error_Some; congruence).
      destruct (nth_error ms i) as [m|] eqn:Hi; [|apply nth_error_None in Hi; lia].
      destruct (Hz i z m Ez Hi) as (_ & _ & _ & _ & _ & Hco & Hgl & Hda & Hfn & _).
      assert (Hk' : exists ks, nth_error (mf_fn m) j = Some ks /\ positions (z_nodes h z) (f_nodes h f) ks).
      { clear - Hfn Ej. unfold position_rows in Hfn. revert j Ej. induction Hfn as [|a b la lb Hab Hfn IH]; intros j Ej; [destruct j; discriminate Ej|].
        destruct j as [|j]; [|apply (IH j Ej)]. cbn in Ej. injection Ej as <-. exists b. split; [reflexivity|exact Hab]. }
      destruct Hk' as (ks & K1 & K2). exists i, m, j. split; [exact Hi|]. split; [split|].
      + rewrite Hgl. apply map_nth_error. exact Ej.
      + exists ks. split; [exact K1|]. apply (cry_nodes_of h z); auto.
      + unfold cry_data; rewrite Hda. split; [rewrite map_length; reflexivity|]. intros c v Hv.
        exists (map (fun f0 => face_get h f0 v) (z_faces h z)). split.
        * apply (map_nth_error (fun e => map (fun f0 => face_get h f0 e) (z_faces h z))). exact Hv.
        * apply (map_nth_error (fun f0 => face_get h f0 v)). exact Ej.
  Qed.

  Lemma by_decomposition : forall st fixed h h', order_ok -> decompose_by st fixed h = (Ok tt, h') ->
    exists d, decomposition None d /\ d h = (Ok tt, h').
  Proof.
    intros st fixed h h' Ho E. unfold decompose_by in E.
    destruct (one_domain st && match fixed with [] => true | _ => false end).
    - exists (decompose_mono None). split; [apply d_mono|exact E].
    - destruct st as [n|n].
      + eexists. split; [apply d_hier; [exact Ho|exact axis_signs_mesh]|exact E].
      + destruct (n =? 0)%Z; [discriminate|]. destruct (n <=? Z.of_nat (length fixed))%Z; [discriminate|].
        eexists. split; [apply d_farhat|exact E].
  Qed.

  Lemma faces_there : forall text h hl evs, load true text h = (Ok tt, hl) -> file_form [] (file_lines text) evs ->
    faces_in (zones_of evs) <> 0 -> g_faces hl <> [].
  Proof.
    intros text h hl evs El Hf Nf K. destruct (load_result _ _ _ _ _ El Hf) as [Ld _]. apply Nf.
    rewrite <- (faces_count _ _ (ld_zones _ _ _ Ld)), K. reflexivity.
  Qed.

  (** split of a grid file into files for the solver. *)
  Theorem split_read : forall text strat fixed rf h hs ms evs base ts sf, faithful_numbers -> order_ok ->
    file_form [] (file_lines text) evs -> no_degenerate (zones_of evs) -> faces_in (zones_of evs) <> 0 ->
    split (Some text) (lit ".dat") strat fixed rf ToMpi h = (Ok (WMpi ms), hs) ->
    exists files, store_mpi base ts sf hs = Ok files /\ length files = length ms /\ NoDup (map fst files) /\
      forall i nm t, nth_error files i = Some (nm, t) -> file_name base ts sf i nm /\
        exists m, read_cry t = Some m /\ nth_error ms i = Some m.
  Proof.
    intros text strat fixed rf h hs ms evs base ts sf Hn Ho Hf Nd Nf Es.
    apply split_inv in Es as (_ & Es & Ew). apply split_decompose_inv in Es as (hl & hr & st & El & _ & Hr & _ & Ed).
    destruct (loaded_good _ _ _ _ El Hf Nd) as (Hok & Hl & Hnb & Hm). destruct (loaded_names _ _ _ _ _ El Hf) as (Hzn & _).
    pose proof (faces_there _ _ _ _ El Hf Nf) as Ne. pose proof (completed_ok _ _ _ Hr Hok) as Hokr.
    assert (Hnr : numbered hr) by (destruct Hr as [-> _]; exact Hnb).
    assert (Ner : g_faces hr <> []) by (destruct Hr as [-> _]; exact Ne).
    assert (Hzr : forall z, In z (g_zones hr) -> plain_name (z_name hr z)) by (destruct Hr as [-> _]; exact Hzn).
    destruct (by_decomposition _ _ _ _ Ho Ed) as (d & Hd & Ed').
    destruct (zone_names_after None d hr hs Hokr Ner Hd Ed' Hzr) as [(M & _ & Zk & Lk & _) Pz].
    assert (Hts : topo_ok hs) by (eapply topo_mesh; [exact M|apply Hokr]).
    destruct (store_read base ts sf hs Hn (conj Hts Zk) Lk (numbered_mesh _ _ M Hnr) Pz) as (files & ms' & E1 & E2 & L & N & Q).
    cbn [write_out] in Ew. rewrite E2 in Ew. cbn [rbind] in Ew. injection Ew as E. subst ms'.
    exists files. split; [exact E1|]. split; [|split; [exact N|exact Q]].
    destruct (mpi_cover_main hs (conj Hts Zk) Lk (numbered_mesh _ _ M Hnr)) as (ms' & Em & Lm & _). rewrite E2 in Em. injection Em as E. subst ms'. congruence.
  Qed.

  (** The files written from a decomposed grid. *)
  Theorem divided_read : forall nm d text base ts sf h hl h' evs, faithful_numbers -> decomposition nm d ->
    file_form [] (file_lines text) evs -> no_degenerate (zones_of evs) -> faces_in (zones_of evs) <> 0 ->
    load true text (new_grid h) = (Ok tt, hl) -> d hl = (Ok tt, h') ->
    exists files, divide_mpi d text base ts sf h = (Ok files, h') /\ length files = length (g_zones h') /\ NoDup (map fst files) /\
      (forall i n t, nth_error files i = Some (n, t) -> file_name base ts sf i n /\
        exists m z, read_cry t = Some m /\ mf_mpi m = i /\ nth_error (g_zones h') i = Some z /\ mf_title m = z_name h' z) /\
      (forall i n t m j g, nth_error files i = Some (n, t) -> read_cry t = Some m -> nth_error (mf_gloids m) j = Some g ->
        (exists k, k < faces_in (zones_of evs) /\ g = Z.of_nat k) /\
        forall i' n' t' m' j', nth_error files i' = Some (n', t') -> read_cry t' = Some m' -> nth_error (mf_gloids m') j' = Some g ->
          i' = i /\ j' = j) /\
      forall k f, nth_error (g_faces hl) k = Some f -> exists i n t m j,
        nth_error files i = Some (n, t) /\ read_cry t = Some m /\
        cry_face m j (Z.of_nat k) (map (n_p hl) (f_nodes hl f)) /\ cry_data m j (f_data hl f).
  Proof.
    intros nm d text base ts sf h hl h' evs Hn Hd Hf Nd Nf El Ed.
    destruct (loaded_good _ _ _ _ El Hf Nd) as (Hok & Hl & Hnb & Hm). destruct (loaded_names _ _ _ _ _ El Hf) as (Hzn & _).
    destruct (load_result _ _ _ _ _ El Hf) as [Ld _]. pose proof (faces_count _ _ (ld_zones _ _ _ Ld)) as Ec.
    pose proof (faces_there _ _ _ _ El Hf Nf) as Ne.
    destruct (zone_names_after nm d hl h' Hok Ne Hd Ed Hzn) as [(M & _ & Zk & Lk & _) Pz].
    assert (Ht : topo_ok h') by (eapply topo_mesh; [exact M|apply Hok]). pose proof (numbered_mesh _ _ M Hnb) as Hn'.
    assert (Fs : g_faces h' = g_faces hl /\ f_glo h' = f_glo hl /\ f_data h' = f_data hl /\ n_p h' = n_p hl /\ f_nodes h' = f_nodes hl).
    { apply mesh_fields in M. decompose [and] M. repeat split; assumption. }
    destruct Fs as (A1 & A2 & A3 & A4 & A5).
    destruct (store_read base ts sf h' Hn (conj Ht Zk) Lk Hn' Pz) as (files & ms & E1 & E2 & L & N & Q).
    destruct (stored_every h' ms (conj Ht Zk) Lk Hn' E2) as (U & I & B & V).
    destruct (mpi_cover_main h' (conj Ht Zk) Lk Hn') as (ms' & Em & Lm & _). rewrite E2 in Em. injection Em as E. subst ms'.
    exists files. split.
    { unfold divide_mpi. rewrite bind_modify, (bind_run _ _ _ _ _ _ _ El), (bind_run _ _ _ _ _ _ _ Ed), bind_gets. cbv beta. rewrite E1. reflexivity. }
    split; [exact L|]. split; [exact N|]. split; [|split].
    - intros i n t Hi. destruct (Q i n t Hi) as (Q1 & m & Q2 & Q3). split; [exact Q1|].
      destruct (I i m Q3) as (I1 & z & I2 & I3). exists m, z. auto.
    - intros i n t m j g Hi Hm' Hj. destruct (Q i n t Hi) as (_ & m1 & Q2 & Q3). rewrite Hm' in Q2. injection Q2 as E. subst m1. split.
      + destruct (B i m j g Q3 Hj) as (k & B1 & B2). exists k. split; [|exact B2]. rewrite A1, Ec in B1. exact B1.
      + intros i' n' t' m' j' Hi' Hmm' Hj'. destruct (Q i' n' t' Hi') as (_ & m1 & Q2 & Q4). rewrite Hmm' in Q2. injection Q2 as E. subst m1.
        exact (U i' m' j' i m j g Q4 Hj' Q3 Hj).
    - intros k f Hk. assert (If : In f (g_faces h')) by (rewrite A1; apply (nth_error_In _ _ Hk)).
      destruct (V f If) as (i & m & j & Hi & Cf & Cd). rewrite A2, A4, A5 in Cf. rewrite A3 in Cd. rewrite (proj2 (proj2 (ld_num _ _ _ Ld)) k f Hk) in Cf.
      assert (Li : i < length files) by (rewrite L, <- Lm; apply nth_error_Some; congruence).
      destruct (nth_error files i) as [[n t]|] eqn:Ei; [|apply nth_error_None in Ei; lia].
      destruct (Q i n t Ei) as (_ & m1 & Q2 & Q3). rewrite Hi in Q3. injection Q3 as E. subst m1.
      exists i, n, t, m, j. auto.
  Qed.

  (** The cycle through the texts of the files. *)
  Theorem cycle_texts : forall text strat fixed rf h hs ms evs h0 vars base ts sf files txts tabs, faithful_numbers -> order_ok ->
    file_form [] (file_lines text) evs -> no_degenerate (zones_of evs) -> faces_in (zones_of evs) <> 0 ->
    split (Some text) (lit ".dat") strat fixed rf ToMpi h = (Ok (WMpi ms), hs) -> store_mpi base ts sf hs = Ok files ->
    title_in evs <> None \/ plain_name (g_name h0) -> NoDup vars ->
    length txts = length files -> length tabs = length files ->
    (forall i n c t tab, nth_error files i = Some (n, c) -> nth_error txts i = Some t -> nth_error tabs i = Some tab -> solved vars c t tab) ->
    exists out h', merge_one text txts h0 = (Ok out, h') /\
      forall h1, exists h2, load true out h1 = (Ok tt, h2) /\ length (g_faces h2) = faces_in (zones_of evs) /\
        forall i n c m tab j g ps vs, nth_error files i = Some (n, c) -> read_cry c = Some m -> nth_error tabs i = Some tab ->
          cry_face m j g ps -> In (g, vs) tab ->
          exists f, (0 <= g)%Z /\ nth_error (g_faces h2) (Z.to_nat g) = Some f /\ map (n_p h2) (f_nodes h2 f) = ps /\
            f_data h2 f = dict_of str_dec (combine vars vs).
  Proof.
    intros text strat fixed rf h hs ms evs h0 vars base ts sf files txts tabs Hn Ho Hf Nd Nf Es Ew Ht Nv Lx Lt Hc.
    destruct (split_read _ _ _ _ _ _ _ _ base ts sf Hn Ho Hf Nd Nf Es) as (files' & E1 & L & _ & Q).
    rewrite Ew in E1. injection E1 as E. subst files'.
    assert (Hc' : forall i m t tab, nth_error ms i = Some m -> nth_error txts i = Some t -> nth_error tabs i = Some tab -> computed vars m t tab).
    { intros i m t tab H1 H2 H3. assert (Li : i < length files) by (rewrite L; apply nth_error_Some; congruence).
      destruct (nth_error files i) as [[n c]|] eqn:Ei; [|apply nth_error_None in Ei; lia].
      destruct (Q i n c Ei) as (_ & m1 & Q2 & Q3). rewrite H1 in Q3. injection Q3 as E. subst m1.
      destruct (Hc i n c t tab Ei H2 H3) as (m2 & R1 & R2). rewrite Q2 in R1. injection R1 as E. subst m2. exact R2. }
    destruct (cycle text strat fixed rf h hs ms evs h0 vars txts tabs Hn Ho Hf Nd Nf Es Ht Nv) as (out & h' & E2 & H2); [congruence|congruence|exact Hc'|].
    exists out, h'. split; [exact E2|]. intros h1. destruct (H2 h1) as (h2 & E3 & E4 & H3). exists h2. split; [exact E3|]. split; [exact E4|].
    intros i n c m tab j g ps vs Hi Hm Htab Cf Hin. destruct (Q i n c Hi) as (_ & m1 & Q2 & Q3). rewrite Hm in Q2. injection Q2 as E. subst m1.
    assert (Li : i < length txts) by (rewrite Lx; apply nth_error_Some; congruence).
    destruct (nth_error txts i) as [t|] eqn:Et; [|apply nth_error_None in Et; lia].
    exact (H3 i m t tab j g ps vs Q3 Et Htab Cf Hin).
  Qed.
End SolverMain.
