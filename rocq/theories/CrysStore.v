(** Proofs about a run of crys.py, continued: the collected heights, the stored file. *)

From Coq Require Import ZArith NArith Reals Ascii String Bool Lia Arith List FunctionalExtensionality Permutation.
From Verif Require Import Py PyLemmas Heap HeapLemmas GridModel GridSpec Zam ZamSpec ZamProofs Mpi MpiSpec MpiProofs GridIO FileSpec StoreSpec
  LoadParse LoadMain RoundTrip MergeProofs PlainProofs SamplesStore DecompSpec AssignProofs PartialZones SimpleDecomp FarhatProofs DecompMain
  Driver DriverSpec DriverProofs StrategyProofs Exchange ExchangeSpec ExchangeProofs Gather GatherProofs DecompProofs Atomic AtomicMain Geom Programs ProgramsSpec
  ProgramsProofs Crys CrysSpec CrysProofs CrysRun.
From Verif Require Remesh RemeshSpec RemeshProofs.
Import ListNotations.
Open Scope list_scope.
Open Scope nat_scope.

Section CrysStore.
  Context {F : FloatOps}.
  Variable plus : val -> Z -> val.
  Variables (real : val -> R) (near : R -> val).
  Notation topo_of := Programs.topo_of.
  Notation st_of := (Programs.st_of real).

  (** The remeshing and the storing of a grid. *)
  Lemma remesh_stored : forall fixn o h1 s', faithful_numbers -> grid_ok h1 -> zone_lists_ok h1 -> numbered h1 -> writable h1 ->
    Remesh.remesh o (topo_of h1) (st_of h1) = Ok s' ->
    let pos := fun n => pt_of near (Remesh.n_pos s' n) in
    apart pos h1 -> exists out h', bind (remesh_grid real near fixn o) (fun _ => bind (gets (fun h => h)) (fun h => lift (store h))) h1 = (Ok out, h') /\
    forall h0, exists h2, load true out h0 = (Ok tt, h2) /\
      same_surface pos (with_var (lit "Hi") (grid_vars h1))
        (fun f v => if str_dec v (lit "Hi") then near 0%R else var_value h1 f v) h1 h2.
  Proof.
    intros fixn o h1 s' Hn Ok1 Zl Nb W Er pos Ap. pose proof (proj1 W) as Hne.
    assert (Hz : forall f, In f (g_faces h1) -> Remesh.f_hi s' f = 0%R).
    { pose proof (loaded_topo _ Ok1) as P. unfold Remesh.remesh in Er.
      destruct (Remesh.plan_ice (topo_of h1) (st_of h1)) as [s1|]; [|discriminate]. cbn [rbind] in Er.
      destruct (Remesh.calculate_nsteps o (topo_of h1) s1) as [k|]; [|discriminate]. cbn [rbind] in Er.
      destruct (if Remesh.pseudo_2d_oz o then Remesh.clusterize_nodes (topo_of h1) else Ok tt) as [[]|]; [|discriminate]. cbn [rbind] in Er.
      destruct (Remesh.steps o (topo_of h1) (Z.to_nat k) s1) as [s2|]; [|discriminate]. cbn [rbind] in Er.
      destruct (RemeshProofs.loop_pure RemeshProofs.fd_hi (fun _ _ => 0%R) (fun _ _ _ _ => eq_refl) (Remesh.faces (topo_of h1)) s2 (proj1 P))
        as (hi & E3 & V3 & _).
      rewrite E3 in Er. injection Er as <-. intros f Hfc. cbn [Remesh.f_hi Remesh.w_hi]. apply V3. exact Hfc. }
    assert (Mk : exists b k, (if fixn then mark_all_fixed_nodes else ret tt) h1 = (Ok tt, set_g_nborder (set_n_border h1 b) k)).
    { destruct fixn.
      - destruct (mark_all_ok h1) as (h1' & b & l & E1 & -> & _). eauto.
      - exists (n_border h1), (g_nborder h1). destruct h1; reflexivity. }
    destruct Mk as (b & k & Em). set (hb := set_g_nborder (set_n_border h1 b) k) in *.
    set (p := fun n => if in_dec Nat.eq_dec n (g_nodes h1) then pos n else n_p h1 n).
    set (d := fun f => if in_dec Nat.eq_dec f (g_faces h1) then dset str_dec (f_data h1 f) (lit "Hi") (near (Remesh.f_hi s' f)) else f_data h1 f).
    assert (Okb : grid_ok hb) by (destruct Ok1 as [[] []]; split; constructor; assumption).
    assert (Gv : grid_vars (set_f_data (set_n_p hb p) d) = with_var (lit "Hi") (grid_vars h1)).
    { unfold grid_vars. change (g_faces (set_f_data (set_n_p hb p) d)) with (g_faces h1).
      change (f_data (set_f_data (set_n_p hb p) d)) with d.
      destruct (g_faces h1) as [|f fs] eqn:Ef; [congruence|].
      assert (Ed : d f = dset str_dec (f_data h1 f) (lit "Hi") (near (Remesh.f_hi s' f))).
      { unfold d. destruct (in_dec Nat.eq_dec f (f :: fs)) as [_|K]; [reflexivity|]. exfalso. apply K. left. auto. }
      rewrite Ed. apply ProgramsProofs.keys_dset. }
    assert (App : apart p hb).
    { intros x y Hx Hy. change (g_nodes hb) with (g_nodes h1) in *. unfold p.
      destruct (in_dec Nat.eq_dec x (g_nodes h1)); [|contradiction]. destruct (in_dec Nat.eq_dec y (g_nodes h1)); [|contradiction]. apply Ap; auto. }
    destruct W as (W1 & W2 & W3 & W4 & W5).
    destruct (moved_again hb p d Hn Okb Zl Nb (conj W1 (conj W2 (conj W3 (conj W4 W5)))) App) as (out & Es & K).
    { rewrite Gv. intros v Hv. apply with_var_in in Hv as [->|Hv]; [|auto]. split; [discriminate|].
      intros c [<-|[<-|[]]]; repeat split; try discriminate; vm_compute; reflexivity. }
    { rewrite Gv. apply with_var_nodup. exact W5. }
    exists out, (set_f_data (set_n_p hb p) d). split.
    - assert (Eg : remesh_grid real near fixn o h1 = (Ok tt, set_f_data (set_n_p hb p) d)).
      { unfold remesh_grid. rewrite (bind_run _ _ _ _ _ _ _ Em), bind_gets.
        change (Programs.topo_of hb) with (topo_of h1). change (Programs.st_of real hb) with (st_of h1). rewrite Er. reflexivity. }
      rewrite (bind_run _ _ _ _ _ _ _ Eg), bind_gets, Es. reflexivity.
    - intros h0. destruct (K h0) as (h2 & E2 & S). exists h2. split; [exact E2|]. rewrite Gv in S.
      destruct S as (S1 & S2 & S3 & S4). split; [exact S1|]. split; [exact S2|]. split; [exact S3|].
      intros i z z' Hi Hi'. destruct (S4 i z z' Hi Hi') as (T1 & T2 & T3). split; [exact T1|]. split; [exact T2|].
      intros j f f' Hj Hj'. destruct (T3 j f f' Hj Hj') as (U1 & U2 & U3).
      destruct Ok1 as [T Zo].
      assert (Hfc : In f (g_faces h1)).
      { apply (zo_faces h1 Zo z f); [eapply nth_error_In; exact Hi|]. eapply nth_error_In. exact Hj. }
      split; [|split; [exact U2|]].
      + rewrite U1. apply map_ext_in. intros n Hin. unfold p. destruct (in_dec Nat.eq_dec n (g_nodes h1)) as [_|N]; [reflexivity|].
        exfalso. apply N. apply (t_face_nodes h1 T f Hfc). exact Hin.
      + intros v Hv. rewrite (U3 v Hv). f_equal. unfold d. destruct (in_dec Nat.eq_dec f (g_faces h1)) as [_|N]; [|contradiction].
        rewrite dget_dset, (Hz f Hfc). destruct (str_dec v (lit "Hi")); reflexivity.
  Qed.

  Lemma remesh_raises : forall fixn o h1 e, Remesh.remesh o (topo_of h1) (st_of h1) = Raise e ->
    fst (bind (remesh_grid real near fixn o) (fun _ => bind (gets (fun h => h)) (fun h => lift (store h))) h1) = Raise e.
  Proof.
    intros fixn o h1 e Er.
    assert (Mk : exists b k, (if fixn then mark_all_fixed_nodes else ret tt) h1 = (Ok tt, set_g_nborder (set_n_border h1 b) k)).
    { destruct fixn.
      - destruct (mark_all_ok h1) as (h1' & b & l & E1 & -> & _). eauto.
      - exists (n_border h1), (g_nborder h1). destruct h1; reflexivity. }
    destruct Mk as (b & k & Em). set (hb := set_g_nborder (set_n_border h1 b) k) in *.
    assert (Eg : remesh_grid real near fixn o h1 = (Raise e, hb)).
    { unfold remesh_grid. rewrite (bind_run _ _ _ _ _ _ _ Em), bind_gets.
      change (Programs.topo_of hb) with (topo_of h1). change (Programs.st_of real hb) with (st_of h1). rewrite Er. reflexivity. }
    unfold bind at 1. rewrite Eg. reflexivity.
  Qed.

  Lemma concat_maps : forall A B C (g : A -> list B) (v : B -> C) l, concat (map (fun z => map v (g z)) l) = map v (flat_map g l).
  Proof. intros A B C g v. induction l as [|a l IH]; [reflexivity|]. cbn [map concat flat_map]. rewrite map_app, IH. reflexivity. Qed.

  Lemma zones_length : forall h, grid_ok h -> length (flat_map (z_faces h) (g_zones h)) = length (g_faces h).
  Proof.
    intros h Hok. apply Permutation_length. apply NoDup_Permutation.
    - apply zones_faces_nd. exact Hok.
    - apply (t_faces_nd h (proj1 Hok)).
    - intros f. apply zones_faces_in. exact Hok.
  Qed.

  Lemma place_bound : forall N k i j c, 1 <= k -> i < k -> c = N / k + (if i <? N mod k then 1 else 0) -> j < c -> i * c + j < N.
  Proof.
    intros N k i j c Hk Hi Hc Hj. pose proof (Nat.div_mod N k ltac:(lia)) as Ed. pose proof (Nat.mod_upper_bound N k ltac:(lia)) as Hm.
    set (q := N / k) in *. set (m := N mod k) in *. clearbody q m. destruct (Nat.ltb_spec i m) as [H|H]; subst c.
    - assert (i * (q + 1) + j < m * (q + 1)) by nia. assert (m * q <= k * q) by (apply Nat.mul_le_mono_r; lia). lia.
    - assert (i * (q + 0) + j < k * q) by nia. lia.
  Qed.

  (** The collection of the heights. *)
  Lemma collect_main : forall hl size hz ps d, 1 <= size -> in_zones hl size hz -> all_have hl work_vars ->
    (forall rank z, nth_error (g_zones hz) rank = Some z -> arrays_of plus hl hz z (ps rank)) ->
    (forall f, keys (d f) = keys (f_data hz f)) -> (forall f k, dget str_dec (d f) k = dget str_dec (f_data hz f) k) ->
    exists dc hc, gather_his (set_f_data hz d) (map (fun r => pr_hi (ps r)) (seq 0 size)) d = Ok dc /\
      (forall f, keys (dc f) = keys (f_data hz f)) /\
      (forall f k, k <> lit "Hi" -> dget str_dec (dc f) k = dget str_dec (f_data hz f) k) /\
      (forall f, dget str_dec (dc f) (lit "Hi") = dget str_dec (f_data hc f) (lit "Hi")) /\
      collected plus hl hz hc.
  Proof.
    intros hl size hz ps d Hs I Ha Har Hk Hd. pose proof I as (R & L & _ & _ & _ & Gf & _ & _ & _ & _ & D & Sz). destruct R as (Hok & R').
    assert (Ehis : map (fun r => pr_hi (ps r)) (seq 0 size) = map (fun z => map (fun f => plus (var_value hl f (lit "Hi")) 2) (z_faces hz z)) (g_zones hz)).
    { apply nth_error_ext'. intros i. rewrite !nth_error_map. destruct (nth_error (g_zones hz) i) as [z|] eqn:Ez; cbn [option_map].
      - assert (i < size) by (rewrite <- L; apply nth_error_Some; congruence).
        rewrite nth_error_seq by assumption. cbn [option_map]; rewrite ?Nat.add_0_l. destruct (Har i z Ez) as (_ & _ & -> & _). reflexivity.
      - apply nth_error_None in Ez. rewrite (proj2 (nth_error_None (seq 0 size) i)) by (rewrite seq_length; lia). reflexivity. }
    assert (Okd : grid_ok (set_f_data hz d)) by (apply grid_ok_data; exact Hok).
    assert (Hm : Forall2 (fun z (l : list val) => length l = length (z_faces (set_f_data hz d) z)) (g_zones (set_f_data hz d)) (map (fun r => pr_hi (ps r)) (seq 0 size))).
    { rewrite Ehis. change (g_zones (set_f_data hz d)) with (g_zones hz). change (z_faces (set_f_data hz d)) with (z_faces hz). clear.
      induction (g_zones hz) as [|z l IH]; [constructor|]. cbn [map]. constructor; [apply map_length|exact IH]. }
    destruct (gather_ok _ Okd _ d Hm) as (dc & E & U1 & U2 & U3). exists dc.
    exists (set_f_data hl (fun f => if in_dec Nat.eq_dec f (g_faces hl)
       then dset str_dec (f_data hl f) (lit "Hi") (match dget str_dec (dc f) (lit "Hi") with Some v => v | None => val0 end) else f_data hl f)).
    rewrite Ehis, concat_maps in U3. change (g_zones (set_f_data hz d)) with (g_zones hz) in U3. change (z_faces (set_f_data hz d)) with (z_faces hz) in U3.
    change (g_faces (set_f_data hz d)) with (g_faces hz) in U2.
    assert (Pl : forall i z j f, nth_error (g_zones hz) i = Some z -> nth_error (z_faces hz z) j = Some f ->
       exists g, nth_error (flat_map (z_faces hz) (g_zones hz)) (i * length (z_faces hz z) + j) = Some g /\
         dget str_dec (dc f) (lit "Hi") = Some (plus (var_value hl g (lit "Hi")) 2)).
    { intros i z j f Hi Hj. assert (Hlt : i * length (z_faces hz z) + j < length (flat_map (z_faces hz) (g_zones hz))).
      { rewrite zones_length by exact Hok. rewrite Gf. apply (place_bound _ size); [exact Hs| |exact (Sz i z Hi)|].
        - rewrite <- L. apply nth_error_Some. congruence.
        - apply nth_error_Some. congruence. }
      pose proof (U3 i z j f Hi Hj) as V. rewrite nth_error_map in V.
      destruct (nth_error (flat_map (z_faces hz) (g_zones hz)) (i * length (z_faces hz z) + j)) as [g|] eqn:Eg; [|apply nth_error_None in Eg; lia].
      exists g. split; [reflexivity|]. exact V. }
    split; [exact E|]. split; [|split; [|split; [|split; [|split; [|split]]]]].
    - intros f. rewrite <- (Hk f). apply (spread_keys (set_f_data hz d) _ _ _ _ _ _) with (2 := E). intros z g Hz Hg.
      rewrite Hk. assert (Hgf : In g (g_faces hl)).
      { rewrite <- Gf. destruct Hok as [T Zo]. apply (zo_faces hz Zo z g); assumption. }
      destruct (Ha g (lit "Hi") Hgf) as (v & Ev); [right; left; reflexivity|].
      apply (has_key _ _ v). change hi_name with (lit "Hi"). rewrite D; [exact Ev|]. intros K. discriminate K.
    - intros f k Hne. rewrite (U1 f k Hne). apply Hd.
    - intros f. cbn [set_f_data f_data]. destruct (in_dec Nat.eq_dec f (g_faces hl)) as [Hf|Hf].
      + rewrite PyLemmas.dget_dset. destruct (str_dec (lit "Hi") (lit "Hi")) as [_|N]; [|congruence].
        rewrite <- Gf in Hf. destruct Hok as [T Zo]. destruct (zo_cover hz Zo f Hf) as (z & Hz & Zf).
        assert (Hin : In f (z_faces hz z)) by (apply (zo_faces hz Zo z f Hz); auto).
        apply In_nth_error in Hz as (i & Hi). apply In_nth_error in Hin as (j & Hj). destruct (Pl i z j f Hi Hj) as (g & _ & ->). reflexivity.
      + rewrite <- Gf in Hf. rewrite (U2 f Hf), Hd. apply D. intros K. discriminate K.
    - reflexivity.
    - intros f k Hne. cbn [set_f_data f_data]. destruct (in_dec Nat.eq_dec f (g_faces hl)); [|reflexivity].
      rewrite PyLemmas.dget_dset. destruct (str_dec k (lit "Hi")); [contradiction|reflexivity].
    - intros f Hf. cbn [set_f_data f_data]. destruct (in_dec Nat.eq_dec f (g_faces hl)); [contradiction|reflexivity].
    - intros i z j f Hi Hj. destruct (Pl i z j f Hi Hj) as (g & Eg & V). exists g. split; [exact Eg|].
      unfold var_value at 1. cbn [set_f_data f_data]. destruct (in_dec Nat.eq_dec f (g_faces hl)) as [Hf|Hf].
      + rewrite PyLemmas.dget_dset. destruct (str_dec (lit "Hi") (lit "Hi")) as [_|N]; [|congruence]. rewrite V. reflexivity.
      + exfalso. apply Hf. rewrite <- Gf. destruct Hok as [T Zo]. apply (zo_faces hz Zo z f); [eapply nth_error_In; exact Hi|eapply nth_error_In; exact Hj].
  Qed.
End CrysStore.
