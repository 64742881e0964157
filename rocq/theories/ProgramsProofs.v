(** Proofs about the programs remesh.py and drops.py. *)

From Coq Require Import ZArith Reals Ascii String Bool Lia List.
From Verif Require Import Py PyLemmas Heap HeapLemmas GridModel GridSpec Mpi MpiSpec GridIO FileSpec StoreSpec LoadMain RoundTrip MergeProofs
  PlainProofs SamplesStore Atomic AtomicMain Geom Programs ProgramsSpec.
From Verif Require Remesh RemeshSpec RemeshProofs Drops DropsSpec.
Import ListNotations.
Open Scope list_scope.
Open Scope nat_scope.

Section ProgramsProofs.
  Context {F : FloatOps}.

  (** A loaded grid, stored and loaded again. *)
  Lemma stored_again : forall text h h1 evs, faithful_numbers -> load true text (new_grid h) = (Ok tt, h1) ->
    file_form [] (file_lines text) evs -> no_degenerate (zones_of evs) -> g_faces h1 <> [] ->
    exists out, store h1 = Ok out /\ forall h0, exists h2, load true out h0 = (Ok tt, h2) /\ same_contents (grid_vars h1) h1 h2.
  Proof.
    intros text h h1 evs Hn E Hf Nd Hne. destruct (loaded_good _ _ _ _ E Hf Nd) as (Ok1 & Zl & Nb & Nm).
    assert (W : writable h1).
    { apply (loaded_writable _ _ _ _ E Hf Hne). apply (loaded_names _ _ _ _ _ E Hf). right. intros c []. }
    destruct (round_trip h1 h Hn Ok1 Zl Nb Nm W) as (out & _ & Es & _). exists out. split; [exact Es|].
    intros h0. destruct (round_trip h1 h0 Hn Ok1 Zl Nb Nm W) as (out' & h2 & Es' & E2 & Sc & _).
    rewrite Es in Es'. injection Es' as <-. eauto.
  Qed.

  (** Storing does not look at the rounded coordinates. *)
  Lemma store_zones_rc : forall h rc bag vars nv zs tbl,
    store_zones (set_g_bag (set_n_rc h rc) bag) vars nv tbl zs = store_zones h vars nv tbl zs.
  Proof.
    intros h rc bag vars nv zs. induction zs as [|z zs IH]; intros tbl; [reflexivity|]. cbn [store_zones].
    change (store_zone (set_g_bag (set_n_rc h rc) bag) vars nv tbl z) with (store_zone h vars nv tbl z).
    destruct (store_zone h vars nv tbl z) as [zt|]; [|reflexivity]. cbn [rbind]. rewrite IH. reflexivity.
  Qed.
  Lemma store_rc : forall h rc bag, store (set_g_bag (set_n_rc h rc) bag) = store h.
  Proof.
    intros h rc bag. unfold store. change (g_faces (set_g_bag (set_n_rc h rc) bag)) with (g_faces h).
    destruct (py_get (g_faces h) 0) as [f0|]; [|reflexivity]. cbn [rbind].
    change (f_data (set_g_bag (set_n_rc h rc) bag)) with (f_data h).
    change (g_zones (set_g_bag (set_n_rc h rc) bag)) with (g_zones h).
    change (g_nodes (set_g_bag (set_n_rc h rc) bag)) with (g_nodes h). rewrite store_zones_rc. reflexivity.
  Qed.

  (** A good grid with moved nodes and other data, stored and loaded again. *)
  Lemma moved_again : forall h p d, faithful_numbers -> grid_ok h -> zone_lists_ok h -> numbered h -> writable h ->
    apart p h -> let hm := set_f_data (set_n_p h p) d in
    (forall k, In k (grid_vars hm) -> plain_var k) -> NoDup (grid_vars hm) ->
    exists out, store hm = Ok out /\ forall h0, exists h2, load true out h0 = (Ok tt, h2) /\
      same_surface p (grid_vars hm) (fun f v => match dget str_dec (d f) v with Some x => x | None => val0 end) h h2.
  Proof.
    intros h p d Hn Hok Hl Hnb W Ap hm Pv Nv.
    set (hr := set_g_bag (set_n_rc hm (fun n => rnd (p n))) (map (fun n => rnd (p n)) (g_nodes h))).
    assert (Okr : grid_ok hr) by (destruct Hok as [[] []]; split; constructor; assumption).
    assert (Zr : zone_lists_ok hr) by exact Hl.
    assert (Nr : numbered hr) by exact Hnb.
    assert (Mr : nodes_merged hr).
    { destruct Hok as [[] _]. split; [|split].
      - change (NoDup (map (fun n => rnd (p n)) (g_nodes h))). clear - Ap t_nodes_nd. unfold apart in Ap.
        induction (g_nodes h) as [|n l IH]; [constructor|]. apply NoDup_cons_iff in t_nodes_nd as [A B]. cbn [map]. constructor.
        + intros K. apply in_map_iff in K as (m & Em & Hm). apply A.
          rewrite (Ap n m); [exact Hm|left; auto|right; auto|auto].
        + apply IH; [exact B|]. intros a b Ha Hb. apply Ap; right; auto.
      - intros r. reflexivity.
      - intros n Hi. reflexivity. }
    assert (Wr : writable hr).
    { destruct W as (W1 & W2 & W3 & _). split; [exact W1|]. split; [exact W2|]. split; [exact W3|]. split; [exact Pv|exact Nv]. }
    assert (Es : store hr = store hm) by apply store_rc.
    destruct (round_trip hr h Hn Okr Zr Nr Mr Wr) as (out & _ & E1 & _). exists out. split; [congruence|].
    intros h0. destruct (round_trip hr h0 Hn Okr Zr Nr Mr Wr) as (out' & h2 & E1' & E2 & Sc & _).
    rewrite E1 in E1'. injection E1' as <-. exists h2. split; [exact E2|].
    destruct Sc as (S1 & S2 & S3 & _ & S5). split; [exact S1|]. split; [exact S2|]. split; [exact S3|].
    intros i z z' Hi Hi'. destruct (S5 i z z' Hi Hi') as (T1 & _ & T3 & T4). split; [exact T1|]. split; [exact T3|].
    intros k f f' Hk Hk'. destruct (T4 k f f' Hk Hk') as (U1 & U2 & U3). split; [exact U1|]. split; [exact U2|exact U3].
  Qed.

  Lemma keys_dset : forall V (d : dict str V) k v, keys (dset str_dec d k v) = with_var k (keys d).
  Proof.
    intros V d k v. unfold with_var, keys. induction d as [|[k' v'] d IH]; [reflexivity|]. cbn [dset map fst].
    destruct (str_dec k k') as [->|N].
    - cbn [map fst]. destruct (in_dec str_dec k' (k' :: map fst d)) as [_|K]; [reflexivity|]. exfalso. apply K. left. auto.
    - cbn [map fst]. rewrite IH. destruct (in_dec str_dec k (map fst d)) as [A|A], (in_dec str_dec k (k' :: map fst d)) as [B|B]; auto.
      + exfalso. apply B. right. auto.
      + destruct B as [B|B]; [congruence|contradiction].
  Qed.

  Lemma dget_dset : forall V (d : dict str V) k v k', dget str_dec (dset str_dec d k v) k' = if str_dec k' k then Some v else dget str_dec d k'.
  Proof.
    intros V d k v k'. induction d as [|[j w] d IH]; cbn [dset dget].
    - destruct (str_dec k' k); auto.
    - destruct (str_dec k j) as [->|N]; cbn [dget].
      + destruct (str_dec k' j); auto.
      + rewrite IH. destruct (str_dec k' j) as [->|M]; [|auto]. destruct (str_dec j k); [congruence|auto].
  Qed.

  Lemma with_var_in : forall k vars v, In v (with_var k vars) <-> v = k \/ In v vars.
  Proof.
    intros k vars v. unfold with_var. destruct (in_dec str_dec k vars) as [A|A].
    - split; [auto|]. intros [->|B]; auto.
    - rewrite in_app_iff. cbn. split; [intros [B|[B|[]]]; auto|intros [B|B]; auto].
  Qed.
  Lemma with_var_nodup : forall k vars, NoDup vars -> NoDup (with_var k vars).
  Proof.
    intros k vars N. unfold with_var. destruct (in_dec str_dec k vars) as [A|A]; [exact N|].
    clear - N A. induction vars as [|v l IH]; cbn [app]; [repeat constructor; intros []|].
    apply NoDup_cons_iff in N as [N1 N2]. constructor.
    - rewrite in_app_iff. intros [K|[K|[]]]; [contradiction|]. apply A. left. auto.
    - apply IH; auto. intros K. apply A. right. auto.
  Qed.

  (** A loaded grid is a whole surface for the remesher, if every node is on a face. *)
  Lemma loaded_topo : forall h, grid_ok h -> RemeshSpec.plain_topo (topo_of h).
  Proof.
    intros h [T _]. split; [apply (t_faces_nd h T)|]. split; [apply (t_nodes_nd h T)|]. split.
    - intros e f1 f2 He E. cbn [topo_of Remesh.e_faces Remesh.edges Remesh.faces] in *.
      destruct (t_edge_faces h T e He) as (_ & _ & I). rewrite E in I. split; apply I; cbn; auto.
    - intros n f Hi Hf. apply (t_node_faces h T n Hi). exact Hf.
  Qed.
  Lemma loaded_whole : forall h, grid_ok h -> g_faces h <> [] -> (forall n, In n (g_nodes h) -> n_faces h n <> []) ->
    RemeshSpec.whole (topo_of h).
  Proof.
    intros h Ok1 Hne Hu. split; [apply loaded_topo; auto|]. destruct Ok1 as [T _]. split; [exact Hne|]. split; [|split].
    - cbn [topo_of Remesh.edges]. destruct (g_faces h) as [|f fs] eqn:E; [congruence|].
      destruct (t_face_edges h T f) as (L & _ & I); [rewrite E; left; auto|]. intros K.
      destruct (f_edges h f) as [|e es]; [discriminate|].  specialize (I e (or_introl eq_refl)). rewrite K in I. destruct I.
    - intros f a b c Hf E. cbn [topo_of Remesh.f_nodes Remesh.nodes Remesh.faces] in *.
      destruct (t_face_nodes h T f Hf) as (L & _ & I). unfold three in E.
      destruct (f_nodes h f) as [|x [|y [|z [|]]]]; try discriminate. injection E as <- <- <-. repeat split; apply I; cbn; auto.
    - exact Hu.
  Qed.

  Variables (real : val -> R) (near : R -> val).
  Notation topo_of := Programs.topo_of.
  Notation st_of := (Programs.st_of real).

  (** remesh.py on one file. *)
  Lemma remesh_file_ok : forall fixn o text h h1 evs s', faithful_numbers -> load true text (new_grid h) = (Ok tt, h1) ->
    file_form [] (file_lines text) evs -> no_degenerate (zones_of evs) -> g_faces h1 <> [] ->
    Remesh.remesh o (topo_of h1) (st_of h1) = Ok s' ->
    let pos := fun n => pt_of near (Remesh.n_pos s' n) in
    apart pos h1 -> exists out h', remesh_file real near fixn o text h = (Ok out, h') /\
    forall h0, exists h2, load true out h0 = (Ok tt, h2) /\
      same_surface pos (with_var (lit "Hi") (grid_vars h1))
        (fun f v => if str_dec v (lit "Hi") then near 0%R else var_value h1 f v) h1 h2.
  Proof.
    intros fixn o text h h1 evs s' Hn E Hf Nd Hne Er pos Ap. destruct (loaded_good _ _ _ _ E Hf Nd) as (Ok1 & Zl & Nb & Nm).
    assert (W : writable h1).
    { apply (loaded_writable _ _ _ _ E Hf Hne). apply (loaded_names _ _ _ _ _ E Hf). right. intros c []. }
    assert (Hz : forall f, In f (g_faces h1) -> Remesh.f_hi s' f = 0%R).
    { pose proof (loaded_topo _ Ok1) as P. unfold Remesh.remesh in Er.
      destruct (Remesh.plan_ice (topo_of h1) (st_of h1)) as [s1|]; [|discriminate]. cbn [rbind] in Er.
      destruct (Remesh.calculate_nsteps o (topo_of h1) s1) as [k|]; [|discriminate]. cbn [rbind] in Er.
      destruct (if Remesh.pseudo_2d_oz o then Remesh.clusterize_nodes (topo_of h1) else Ok tt) as [[]|]; [|discriminate]. cbn [rbind] in Er.
      destruct (Remesh.steps o (topo_of h1) (Z.to_nat k) s1) as [s2|]; [|discriminate]. cbn [rbind] in Er.
      destruct (RemeshProofs.loop_pure RemeshProofs.fd_hi (fun _ _ => 0%R) (fun _ _ _ _ => eq_refl) (Remesh.faces (topo_of h1)) s2 (proj1 P))
        as (hi & E3 & V3 & _).
      rewrite E3 in Er. injection Er as <-. intros f Hfc. cbn [Remesh.f_hi Remesh.w_hi]. apply V3. exact Hfc. }
    (* the grid after marking *)
    assert (Mk : exists b k, (if fixn then mark_all_fixed_nodes else ret tt) h1 = (Ok tt, set_g_nborder (set_n_border h1 b) k)).
    { destruct fixn.
      - destruct (mark_all_ok h1) as (h1' & b & l & E1 & -> & _). eauto.
      - exists (n_border h1), (g_nborder h1). destruct h1; reflexivity. }
    destruct Mk as (b & k & Em). set (hb := set_g_nborder (set_n_border h1 b) k) in *.
    set (p := fun n => if in_dec Nat.eq_dec n (g_nodes h1) then pos n else n_p h1 n).
    set (d := fun f => if in_dec Nat.eq_dec f (g_faces h1) then dset str_dec (f_data h1 f) (lit "Hi") (near (Remesh.f_hi s' f)) else f_data h1 f).
    assert (Okb : grid_ok hb) by (destruct Ok1 as [[] []]; split; constructor; assumption).
    assert (Gv : grid_vars (set_f_data (set_n_p hb p) d) = with_var (lit "Hi") (grid_vars h1)).
    { unfold grid_vars. change (g_faces (set_f_data (set_n_p hb p) d)) with (g_faces h1).
      change (f_data (set_f_data (set_n_p hb p) d)) with d.
      destruct (g_faces h1) as [|f fs] eqn:Ef; [congruence|].
      assert (Ed : d f = dset str_dec (f_data h1 f) (lit "Hi") (near (Remesh.f_hi s' f))).
      { unfold d. destruct (in_dec Nat.eq_dec f (f :: fs)) as [_|K]; [reflexivity|]. exfalso. apply K. left. auto. }
      rewrite Ed. apply keys_dset. }
    assert (App : apart p hb).
    { intros x y Hx Hy. change (g_nodes hb) with (g_nodes h1) in *. unfold p.
      destruct (in_dec Nat.eq_dec x (g_nodes h1)); [|contradiction]. destruct (in_dec Nat.eq_dec y (g_nodes h1)); [|contradiction]. apply Ap; auto. }
    destruct W as (W1 & W2 & W3 & W4 & W5).
    destruct (moved_again hb p d Hn Okb Zl Nb (conj W1 (conj W2 (conj W3 (conj W4 W5)))) App) as (out & Es & K).
    { rewrite Gv. intros v Hv. apply with_var_in in Hv as [->|Hv]; [|auto]. split; [discriminate|].
      intros c [<-|[<-|[]]]; repeat split; try discriminate; vm_compute; reflexivity. }
    { rewrite Gv. apply with_var_nodup. exact W5. }
    exists out, (set_f_data (set_n_p hb p) d). split.
    - unfold remesh_file. rewrite bind_modify, (bind_run _ _ _ _ _ _ _ E).
      assert (Eg : remesh_grid real near fixn o h1 = (Ok tt, set_f_data (set_n_p hb p) d)).
      { unfold remesh_grid. rewrite (bind_run _ _ _ _ _ _ _ Em), bind_gets.
        change (Programs.topo_of hb) with (topo_of h1). change (Programs.st_of real hb) with (st_of h1). rewrite Er. reflexivity. }
      rewrite (bind_run _ _ _ _ _ _ _ Eg), bind_gets, Es. reflexivity.
    - intros h0. destruct (K h0) as (h2 & E2 & S). exists h2. split; [exact E2|]. rewrite Gv in S.
      destruct S as (S1 & S2 & S3 & S4). split; [exact S1|]. split; [exact S2|]. split; [exact S3|].
      intros i z z' Hi Hi'. destruct (S4 i z z' Hi Hi') as (T1 & T2 & T3). split; [exact T1|]. split; [exact T2|].
      intros j f f' Hj Hj'. destruct (T3 j f f' Hj Hj') as (U1 & U2 & U3).
      destruct Ok1 as [T Zo].
      assert (Hfc : In f (g_faces h1)).
      { apply (zo_faces h1 Zo z f); [eapply nth_error_In; exact Hi|]. eapply nth_error_In. exact Hj. }
      split; [|split; [exact U2|]].
      + rewrite U1. apply map_ext_in. intros n Hin. unfold p. destruct (in_dec Nat.eq_dec n (g_nodes h1)) as [_|N]; [reflexivity|].
        exfalso. apply N. apply (t_face_nodes h1 T f Hfc). exact Hin.
      + intros v Hv. rewrite (U3 v Hv). f_equal. unfold d. destruct (in_dec Nat.eq_dec f (g_faces h1)) as [_|N]; [|contradiction].
        rewrite dget_dset, (Hz f Hfc). destruct (str_dec v (lit "Hi")); reflexivity.
  Qed.
End ProgramsProofs.
