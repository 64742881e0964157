(** Proofs about whole runs of crys.py. *)

From Coq Require Import ZArith NArith Reals Ascii String Bool Lia Arith List FunctionalExtensionality Permutation Classical_Prop.
From Verif Require Import Py PyLemmas Heap HeapLemmas GridModel GridSpec Zam ZamSpec ZamProofs Mpi MpiSpec MpiProofs GridIO FileSpec StoreSpec
  LoadParse LoadMain RoundTrip MergeProofs PlainProofs SamplesStore DecompSpec AssignProofs PartialZones SimpleDecomp FarhatProofs DecompMain
  Driver DriverSpec DriverProofs StrategyProofs Exchange ExchangeSpec ExchangeProofs Gather GatherProofs DecompProofs Atomic AtomicMain InfoProofs Geom Programs ProgramsSpec
  ProgramsProofs ProgramsMore Crys CrysSpec CrysProofs CrysRun CrysStore.
From Verif Require Remesh RemeshSpec RemeshProofs FlatProofs Drops.
Import ListNotations.
Open Scope list_scope.
Open Scope nat_scope.

Section CrysFinal.
  Context {F : FloatOps}.
  Variable plus : val -> Z -> val.
  Variables (real : val -> R) (near : R -> val).
  Notation topo_of := Programs.topo_of.
  Notation st_of := (Programs.st_of real).

  (** Where the heights come from. *)
  Lemma sizes_before : forall (A B : Type) (g : A -> list B) q m l i, i <= length l ->
    (forall k z, nth_error l k = Some z -> length (g z) = q + (if k <? m then 1 else 0)) ->
    list_sum (map (fun x => length (g x)) (firstn i l)) = i * q + Nat.min i m.
  Proof.
    intros A B g q m l i. induction i as [|i IH]; intros Hi H; [reflexivity|].
    destruct (nth_error l i) as [z|] eqn:Ez; [|apply nth_error_None in Ez; lia].
    assert (Ef : firstn (Datatypes.S i) l = firstn i l ++ [z]).
    { clear IH H Hi. revert l Ez. induction i as [|i IH]; intros [|a l] Ez; try discriminate Ez; cbn in Ez |- *; [congruence|]. f_equal. apply IH. exact Ez. }
    rewrite Ef, map_app, list_sum_app, IH by (auto; lia). cbn [map list_sum fold_right]. rewrite (H i z Ez). destruct (Nat.ltb_spec i m); lia.
  Qed.

  Lemma place_of : forall hl size hz i z j f, in_zones hl size hz -> nth_error (g_zones hz) i = Some z -> nth_error (z_faces hz z) j = Some f ->
    nth_error (flat_map (z_faces hz) (g_zones hz)) (i * (length (g_faces hl) / size) + Nat.min i (length (g_faces hl) mod size) + j) = Some f.
  Proof.
    intros hl size hz i z j f I Hi Hj. pose proof I as (R & L & _ & _ & _ & Gf & _ & _ & _ & _ & D & Sz).
    rewrite <- (sizes_before _ _ (z_faces hz) (length (g_faces hl) / size) (length (g_faces hl) mod size) (g_zones hz) i).
    - rewrite flat_map_concat_map. pose proof (concat_nth _ (map (z_faces hz) (g_zones hz)) i (z_faces hz z) j) as C.
      rewrite firstn_map, map_map in C. rewrite C; [exact Hj| |].
      + rewrite nth_error_map, Hi. reflexivity.
      + apply nth_error_Some. congruence.
    - apply Nat.lt_le_incl. apply nth_error_Some. congruence.
    - exact Sz.
  Qed.

  Lemma collected_places : forall hl size hz hc p f i z, 1 <= size -> in_zones hl size hz -> collected plus hl hz hc ->
    nth_error (g_zones hz) i = Some z -> In f (z_faces hz z) -> nth_error (flat_map (z_faces hz) (g_zones hz)) p = Some f ->
    exists g, nth_error (flat_map (z_faces hz) (g_zones hz)) (p - (if i <? length (g_faces hl) mod size then 0 else length (g_faces hl) mod size)) = Some g /\
      var_value hc f (lit "Hi") = plus (var_value hl g (lit "Hi")) 2.
  Proof.
    intros hl size hz hc p f i z Hs I C Hi Hin Hp. apply In_nth_error in Hin as (j & Hj).
    pose proof (place_of hl size hz i z j f I Hi Hj) as Hp'. pose proof I as (R & L & _ & _ & _ & Gf & _ & _ & _ & _ & D & Sz).
    assert (Ep : p = i * (length (g_faces hl) / size) + Nat.min i (length (g_faces hl) mod size) + j).
    { apply (proj1 (NoDup_nth_error (flat_map (z_faces hz) (g_zones hz))) (zones_faces_nd hz (proj1 R))); [apply nth_error_Some; congruence|congruence]. }
    destruct C as (_ & _ & _ & C). destruct (C i z j f Hi Hj) as (g & Eg & V). exists g. split; [|exact V]. rewrite <- Eg. f_equal.
    rewrite (Sz i z Hi), Ep. destruct (Nat.ltb_spec i (length (g_faces hl) mod size)); nia.
  Qed.

  Lemma iced_state : forall hl size hz hc, 1 <= size ->
    (length (g_faces hl) mod size = 0 \/ forall f g, In f (g_faces hl) -> In g (g_faces hl) -> var_value hl f (lit "Hi") = var_value hl g (lit "Hi")) ->
    in_zones hl size hz -> collected plus hl hz hc ->
    st_of hc = st_of (iced plus hl).
  Proof.
    intros hl size hz hc Hs Hm I C. pose proof I as (R & L & _ & _ & _ & Gf & _). destruct R as (Hok & _).
    assert (Eh : forall f, face_get hc f Drops.kHi = face_get (iced plus hl) f Drops.kHi).
    { intros f. unfold iced, face_get. cbn [set_f_data f_data]. destruct (in_dec Nat.eq_dec f (g_faces hl)) as [Hf|Hf].
      - rewrite PyLemmas.dget_dset. change Drops.kHi with (lit "Hi"). destruct (str_dec (lit "Hi") (lit "Hi")) as [_|N]; [|congruence].
        rewrite <- Gf in Hf. destruct Hok as [T Zo]. destruct (zo_cover hz Zo f Hf) as (z & Hz & Zf).
        assert (Hin : In f (z_faces hz z)) by (apply (zo_faces hz Zo z f Hz); auto).
        apply In_nth_error in Hz as (i & Hi). pose proof Hin as Hin'. apply In_nth_error in Hin as (j & Hj).
        pose proof (place_of hl size hz i z j f I Hi Hj) as Hp.
        destruct (collected_places hl size hz hc _ f i z Hs I C Hi Hin' Hp) as (g & Eg & V).
        assert (Eg' : var_value hl g (lit "Hi") = var_value hl f (lit "Hi")).
        { destruct Hm as [Hm|Hm].
          - rewrite Hm in Eg, Hp. replace (if i <? 0 then 0 else 0) with 0 in Eg by (destruct (i <? 0); reflexivity). rewrite Nat.sub_0_r in Eg. congruence.
          - apply Hm; [|rewrite <- Gf; exact Hf]. rewrite <- Gf. apply nth_error_In in Eg. apply (zones_faces_in hz g (conj T Zo)). exact Eg. }
        rewrite <- Eg'. exact V.
      - destruct C as (_ & _ & C & _). rewrite (C f Hf). reflexivity. }
    destruct C as (Eh' & _). unfold Programs.st_of. f_equal.
    - apply functional_extensionality. intros n. rewrite Eh'. reflexivity.
    - apply functional_extensionality. intros f. rewrite Eh. reflexivity.
  Qed.

  Section Run.
    Variables (text : str) (rf : val) (size : nat) (h hl : heap) (evs : list event).
    Hypothesis Hn : faithful_numbers.
    Hypothesis Hf : file_form [] (file_lines text) evs.
    Hypothesis Nd : no_degenerate (zones_of evs).
    Hypothesis Nf : faces_in (zones_of evs) <> 0.
    Hypothesis El : load true text (new_grid h) = (Ok tt, hl).
    Hypothesis Hs : 1 <= size.

    Lemma run_has : forall w ps hh, (forall rank, rank < size -> prepare plus text rf size rank h = (Ok (w, ps rank), hh)) -> all_have hl work_vars.
    Proof.
      intros w ps hh P f k Hfc Hk. destruct (dget str_dec (f_data hl f) k) as [v|] eqn:E; [eauto|exfalso].
      destruct (prepare_missing plus text rf size h hl evs Hn Hf Nd Nf El Hs f k Hfc Hk E) as (rank & Hr & K).
      rewrite (P rank Hr) in K. discriminate K.
    Qed.

    (** The grid on the root before the heights are collected. *)
    Lemma run_before : forall w ps hh d, (forall rank, rank < size -> prepare plus text rf size rank h = (Ok (w, ps rank), hh)) ->
      root_data before_reuse hh size ps d ->
      in_zones hl size hh /\ writable hh /\ rf_completed rf hl (set_f_data hl (f_data hh)) /\
      (forall rank z, nth_error (g_zones hh) rank = Some z -> arrays_of plus hl hh z (ps rank)) /\
      (forall f, keys (d f) = keys (f_data hh f)) /\ (forall f k, dget str_dec (d f) k = dget str_dec (f_data hh f) k).
    Proof.
      intros w ps hh d P Rd. pose proof (run_has w ps hh P) as Ha.
      destruct (prepare_full plus text rf size h hl evs Hn Hf Nd Nf El Hs Ha) as (w' & hz & a & Es & I & W & M & Rc & Ea & K).
      pose proof I as (R & L & _ & _ & _ & Gf & _ & _ & _ & _ & D & Sz).
      assert (Kz : forall rank z, nth_error (g_zones hz) rank = Some z -> hh = hz /\ arrays_of plus hl hz z (ps rank) /\
        (1 < size -> get_mpi_borders hz rank a z = Ok (pr_borders (ps rank)) /\ forall b, In b (pr_borders (ps rank)) -> length (snd b) <= pr_width (ps rank))).
      { intros rank z Hz. assert (Hr : rank < size) by (rewrite <- L; apply nth_error_Some; congruence).
        destruct (K rank z Hz) as [K1 K2]. specialize (P rank Hr).
        destruct (classic (size = 1 \/ exists y, y <> z /\ touching hz z y)) as [Y|N].
        - destruct (K1 Y) as (p & Ep & A & B). rewrite Ep in P. injection P as E1 E2 E3. subst p. split; [congruence|]. split; [exact A|exact B].
        - exfalso. assert (E : fst (prepare plus text rf size rank h) = Raise EValueError).
          { apply K2; [destruct (Nat.eq_dec size 1); [exfalso; apply N; left; assumption|lia]|].
            intros y Hy T. apply N. right. exists y. split; assumption. }
          rewrite P in E. discriminate E. }
      assert (Eh : hh = hz).
      { destruct (nth_error (g_zones hz) 0) as [z|] eqn:Ez; [|apply nth_error_None in Ez; lia]. apply (Kz 0 z Ez). }
      rewrite Eh in *. split; [exact I|]. split; [exact W|]. split; [exact Rc|]. split; [intros rank z Hz; apply (Kz rank z Hz)|].
      destruct Rd as [[_ ->]|(H1 & sb & rb & s & B & Hr & Hfin & ->)]; [split; reflexivity|].
      assert (Bo : borders_of hz (fun r => pr_borders (ps r))).
      { exists a. split; [exact Ea|]. intros r z Hz. apply (Kz r z Hz). exact H1. }
      assert (Bu : forall xb : nat -> list (list val), (forall r, r < size -> buffer_for (ps r) (xb r)) -> buffers_ok hz (fun r => pr_borders (ps r)) xb).
      { intros xb Hx r Hlt. rewrite L in Hlt. destruct (Hx r Hlt) as [B1 B2]. split; [exact B1|]. intros row b Hrow Hb.
        destruct (nth_error (g_zones hz) r) as [z|] eqn:Ez; [|apply nth_error_None in Ez; lia].
        destruct (Kz r z Ez) as (_ & _ & Kb). destruct (Kb H1) as [_ Kw]. rewrite Forall_forall in B2. rewrite (B2 row Hrow). apply Kw. exact Hb. }
      apply (exchange_idle hz (fun r => pr_borders (ps r)) exchanged_names sb rb s R Bo (Bu sb (fun r Hr => proj1 (B r Hr))) (Bu rb (fun r Hr => proj2 (B r Hr)))); [|exact Hr|exact Hfin|lia].
      intros f k Hfc Hk. rewrite Gf in Hfc. assert (Hk' : In k work_vars) by exact Hk. destruct (Ha f k Hfc Hk') as (v & Ev). exists v.
      rewrite D; [exact Ev|]. intros ->. cbn in Hk. repeat (destruct Hk as [Hk|Hk]; [discriminate Hk|]). exact Hk.
    Qed.

    Lemma run_main : forall fixn o r, crys_run plus real near before_reuse text rf size h fixn o r ->
      exists hz hc, in_zones hl size hz /\ collected plus hl hz hc /\
      match Remesh.remesh o (topo_of hl) (st_of hc) with
      | Raise e => r = Raise e
      | Ok s' => let pos := fun n => pt_of near (Remesh.n_pos s' n) in apart pos hl ->
          exists out, r = Ok out /\ forall h0, exists h2, load true out h0 = (Ok tt, h2) /\
            same_surface pos (with_var recovery_factor (grid_vars hl)) (stored_value rf (near 0%R) hl) hz h2
      end.
    Proof.
      intros fixn o r (w & ps & hz & d & P & Rd & Er). pose proof (run_has w ps hz P) as Ha.
      destruct (run_before w ps hz d P Rd) as (I & W & Rc & Ar & Kd & Dd).
      destruct (collect_main plus hl size hz ps d Hs I Ha Ar Kd Dd) as (dc & hc & Eg & Kc & Dc & Hc & C).
      pose proof I as (R & L & Gn & Gno & Ge & Gf & Np & Nfa & Efa & Fn & D & Sz). destruct R as (Hok & Zl & Zi & Nb).
      exists hz, hc. split; [exact I|]. split; [exact C|].
      set (h1 := set_f_data hz dc).
      assert (Et : topo_of h1 = topo_of hl).
      { unfold Programs.topo_of, h1. cbn [set_f_data g_nodes g_faces g_edges n_faces f_nodes e_faces].
        change (Heap.n_faces (set_f_data hz dc)) with (Heap.n_faces hz). change (Heap.f_nodes (set_f_data hz dc)) with (Heap.f_nodes hz).
        change (Heap.e_faces (set_f_data hz dc)) with (Heap.e_faces hz). rewrite Gno, Gf, Ge, Nfa, Efa, Fn. reflexivity. }
      assert (Est : st_of h1 = st_of hc).
      { unfold Programs.st_of. pose proof C as (Ec & _). f_equal.
        - apply functional_extensionality. intros n. change (n_p h1) with (n_p hz). rewrite Np, Ec. reflexivity.
        - apply functional_extensionality. intros f. unfold face_get. change (f_data h1 f) with (dc f). change Drops.kHi with (lit "Hi"). rewrite Hc. reflexivity. }
      assert (Ef : fst (bind (remesh_grid real near fixn o) (fun _ => bind (gets (fun h => h)) (fun h => lift (store h))) h1) = r).
      { rewrite <- Er. unfold finish, collect. rewrite bind_assoc, bind_gets. cbv beta. rewrite bind_assoc.
        change (f_data (set_f_data hz d)) with d. rewrite Eg, bind_lift_ok. cbv beta. rewrite bind_modify. reflexivity. }
      assert (Gv1 : grid_vars h1 = grid_vars hz).
      { unfold grid_vars, h1. cbn [set_f_data g_faces f_data]. destruct (g_faces hz) as [|f0 fs]; [reflexivity|]. apply Kc. }
      assert (W1 : writable h1).
      { destruct W as (w1 & w2 & w3 & w4 & w5). split; [exact w1|]. split; [exact w2|]. split; [exact w3|]. rewrite Gv1. split; assumption. }
      destruct (Remesh.remesh o (topo_of hl) (st_of hc)) as [s'|e] eqn:Em.
      - intros pos Ap. rewrite <- Et, <- Est in Em.
        assert (Ap1 : apart pos h1).
        { intros a b A B. change (g_nodes h1) with (g_nodes hz) in A, B. rewrite Gno in A, B. apply Ap; assumption. }
        destruct (remesh_stored real near fixn o h1 s' Hn (grid_ok_data hz dc Hok) Zl Nb W1 Em Ap1) as (out & h' & Eo & K).
        exists out. split; [rewrite <- Ef, Eo; reflexivity|]. intros h0. destruct (K h0) as (h2 & E2 & S). exists h2. split; [exact E2|].
        assert (Gv : with_var (lit "Hi") (grid_vars h1) = with_var recovery_factor (grid_vars hl)).
        { rewrite Gv1. unfold grid_vars. rewrite Gf. pose proof (faces_left text h hl evs Hf Nf El) as Fl.
          destruct (g_faces hl) as [|f0 fs] eqn:Ef0; [congruence|]. assert (Hf0 : In f0 (g_faces hl)) by (rewrite Ef0; left; reflexivity).
          pose proof (proj2 Rc f0) as Er0. change (f_data (set_f_data hl (f_data hz)) f0) with (f_data hz f0) in Er0.
          assert (Ek : keys (f_data hz f0) = with_var recovery_factor (keys (f_data hl f0))).
          { rewrite Er0. unfold with_var. destruct (in_dec str_dec recovery_factor (keys (f_data hl f0))) as [Y|N].
            - destruct (dget str_dec (f_data hl f0) recovery_factor) as [v|] eqn:Eg0; [reflexivity|]. apply (dget_None str_dec) in Eg0. contradiction.
            - pose proof (proj2 (dget_None str_dec (f_data hl f0) recovery_factor) N) as E0. rewrite E0.
              destruct (in_dec Nat.eq_dec f0 (g_faces hl)) as [_|N0]; [|contradiction]. unfold keys. rewrite map_app. reflexivity. }
          rewrite Ek. unfold with_var at 1. destruct (in_dec str_dec (lit "Hi") _) as [_|N]; [reflexivity|exfalso]. apply N. apply with_var_in. right.
          destruct (Ha f0 (lit "Hi") Hf0) as (v & Ev); [right; left; reflexivity|]. exact (has_key _ _ _ Ev). }
        rewrite Gv in S. destruct S as (S1 & S2 & S3 & S4). split; [exact S1|]. split; [exact S2|]. split; [exact S3|].
        intros i z z' Hi Hi'. destruct (S4 i z z' Hi Hi') as (T1 & T2 & T3). split; [exact T1|]. split; [exact T2|].
        intros j f f' Hj Hj'. destruct (T3 j f f' Hj Hj') as (U1 & U2 & U3). split; [exact U1|]. split; [exact U2|].
        assert (Hfc : In f (g_faces hl)).
        { rewrite <- Gf. destruct Hok as [T Zo]. apply (zo_faces hz Zo z f); [eapply nth_error_In; exact Hi|eapply nth_error_In; exact Hj]. }
        intros v Hv. rewrite (U3 v Hv). f_equal. unfold stored_value. destruct (str_dec v (lit "Hi")) as [|Nv]; [reflexivity|].
        unfold var_value. change (f_data h1 f) with (dc f). rewrite (Dc f v Nv).
        destruct (str_dec v recovery_factor) as [Ev|Nr]; [|rewrite (D f v Nr); reflexivity]. subst v.
        pose proof (proj2 Rc f) as Erf. change (f_data (set_f_data hl (f_data hz)) f) with (f_data hz f) in Erf. rewrite Erf.
        destruct (dget str_dec (f_data hl f) recovery_factor) as [x|] eqn:Ex; [rewrite Ex; reflexivity|].
        destruct (in_dec Nat.eq_dec f (g_faces hl)) as [_|N0]; [|contradiction].
        rewrite StrategyProofs.dget_app, Ex. destruct (str_dec recovery_factor recovery_factor) as [_|N]; [reflexivity|congruence].
      - rewrite <- Et, <- Est in Em. rewrite <- Ef. apply remesh_raises. exact Em.
    Qed.

    (** On a connected surface the program gets to the end. *)
    Lemma exchange_ends : forall hz bs names d sb rb, ready hz -> borders_of hz bs -> buffers_ok hz bs sb -> buffers_ok hz bs rb ->
      exists s, reached before_reuse hz bs (start names d sb rb) s /\ finished hz s.
    Proof.
      intros hz bs names d sb rb R B S1 S2.
      assert (K : forall s, Acc (fun s2 s1 => exists a, before_reuse s1 a /\ do_act hz bs a s1 = Some s2) s ->
        reached before_reuse hz bs (start names d sb rb) s -> exists s', reached before_reuse hz bs (start names d sb rb) s' /\ finished hz s').
      { intros s A. induction A as [s _ IH]. intros Hr. destruct (exchange_main hz bs names d R B sb rb S1 S2 s Hr) as (_ & [Fi|(a & s' & Ha & Es)] & _).
        - exists s. split; assumption.
        - apply (IH s'); [exists a; split; assumption|]. exact (reached_step _ _ _ _ s a s' Hr Ha Es). }
      pose proof (reached_start before_reuse hz bs (start names d sb rb)) as R0.
      apply (K (start names d sb rb)); [|exact R0]. apply (exchange_main hz bs names d R B sb rb S1 S2 _ R0).
    Qed.

    Lemma run_exists : forall fixn o, all_have hl work_vars -> connected hl (g_faces hl) -> size <= length (g_faces hl) ->
      exists r, crys_run plus real near before_reuse text rf size h fixn o r.
    Proof.
      intros fixn o Ha C Hle.
      destruct (prepare_full plus text rf size h hl evs Hn Hf Nd Nf El Hs Ha) as (w & hz & a & Es & I & W & M & Rc & Ea & K).
      pose proof I as (R & L & _ & _ & _ & Gf & _ & _ & _ & _ & D & Sz).
      assert (T : forall rank z, nth_error (g_zones hz) rank = Some z -> size = 1 \/ exists y, y <> z /\ touching hz z y).
      { intros rank z Hz. destruct (Nat.eq_dec size 1) as [|Hne]; [left; assumption|right]. apply (all_touch plus rf size hl evs Nf Hs hz rank z I M C Hle); [lia|exact Hz]. }
      set (ps := fun rank => match fst (prepare plus text rf size rank h) with Ok (_, p) => p | Raise _ => mkPrep 0 [] [] [] [] 0 end).
      assert (P : forall rank z, nth_error (g_zones hz) rank = Some z -> prepare plus text rf size rank h = (Ok (w, ps rank), hz) /\
        (1 < size -> get_mpi_borders hz rank a z = Ok (pr_borders (ps rank)) /\ forall b, In b (pr_borders (ps rank)) -> length (snd b) <= pr_width (ps rank))).
      { intros rank z Ez. destruct (proj1 (K rank z Ez) (T rank z Ez)) as (p & E & _ & B). unfold ps. rewrite E. cbn [fst]. split; [reflexivity|exact B]. }
      assert (Pr : forall rank, rank < size -> prepare plus text rf size rank h = (Ok (w, ps rank), hz)).
      { intros rank Hr. destruct (nth_error (g_zones hz) rank) as [z|] eqn:Ez; [|apply nth_error_None in Ez; lia]. apply (P rank z Ez). }
      clearbody ps.
      assert (Rd : exists d, root_data before_reuse hz size ps d).
      { destruct (le_lt_dec size 1) as [H1|H1]; [exists (f_data hz); left; split; [exact H1|reflexivity]|].
        set (sb := fun r => repeat (repeat val0 (pr_width (ps r))) (length (pr_borders (ps r)))).
        assert (Bf : forall r, buffer_for (ps r) (sb r)).
        { intros r. split; [apply repeat_length|]. apply Forall_forall. intros row Hr. apply repeat_spec in Hr. subst row. apply repeat_length. }
        assert (Bo : borders_of hz (fun r => pr_borders (ps r))).
        { exists a. split; [exact Ea|]. intros r z Hz. apply (P r z Hz). exact H1. }
        assert (Bu : buffers_ok hz (fun r => pr_borders (ps r)) sb).
        { intros r Hlt. rewrite L in Hlt. destruct (Bf r) as [B1 B2]. split; [exact B1|]. intros row b Hrow Hb.
          destruct (nth_error (g_zones hz) r) as [z|] eqn:Ez; [|apply nth_error_None in Ez; lia].
          destruct (P r z Ez) as [_ Kb]. destruct (Kb H1) as [_ Kw]. rewrite Forall_forall in B2. rewrite (B2 row Hrow). apply Kw. exact Hb. }
        destruct (exchange_ends hz (fun r => pr_borders (ps r)) exchanged_names (fun _ => f_data hz) sb sb R Bo Bu Bu) as (s & Hr & Hfi).
        exists (r_data (s_rank s 0)). right. split; [exact H1|]. exists sb, sb, s. split; [intros r _; split; apply Bf|].
        split; [exact Hr|]. split; [exact Hfi|reflexivity]. }
      destruct Rd as (d & Rd). eexists. exists w, ps, hz, d. split; [exact Pr|]. split; [exact Rd|reflexivity].
    Qed.

    (** The result of a run when the heights are right. *)
    Lemma run_equal : forall fixn o r, crys_run plus real near before_reuse text rf size h fixn o r ->
      (length (g_faces hl) mod size = 0 \/ forall f g, In f (g_faces hl) -> In g (g_faces hl) -> var_value hl f (lit "Hi") = var_value hl g (lit "Hi")) ->
      match Remesh.remesh o (topo_of hl) (st_of (iced plus hl)) with
      | Raise e => r = Raise e
      | Ok s' => let pos := fun n => pt_of near (Remesh.n_pos s' n) in apart pos hl ->
          exists hz out, in_zones hl size hz /\ r = Ok out /\ forall h0, exists h2, load true out h0 = (Ok tt, h2) /\
            same_surface pos (with_var recovery_factor (grid_vars hl)) (stored_value rf (near 0%R) hl) hz h2
      end.
    Proof.
      intros fixn o r Hr Hm. destruct (run_main fixn o r Hr) as (hz & hc & I & C & K). rewrite (iced_state hl size hz hc Hs Hm I C) in K.
      destruct (Remesh.remesh o (topo_of hl) (st_of (iced plus hl))) as [s'|e]; [|exact K].
      intros pos Ap. destruct (K Ap) as (out & E & K'). exists hz, out. split; [exact I|]. split; [exact E|exact K'].
    Qed.

    (** A division into zones of different sizes mixes the heights up. *)
    Lemma run_mixed : forall hz hc, in_zones hl size hz -> collected plus hl hz hc -> size <= length (g_faces hl) ->
      length (g_faces hl) mod size <> 0 ->
      exists f g, In f (g_faces hl) /\ In g (g_faces hl) /\ f <> g /\ var_value hc f (lit "Hi") = plus (var_value hl g (lit "Hi")) 2.
    Proof using plus Hs. clear Nf.
      intros hz hc I C Hle Hm. pose proof I as (R & L & _ & _ & _ & Gf & _ & _ & _ & _ & D & Sz). destruct R as (Hok & _).
      set (q := length (g_faces hl) / size). set (m := length (g_faces hl) mod size) in *.
      assert (Hq : 1 <= q) by (apply Nat.div_le_lower_bound; lia).
      assert (Hmu : m < size) by (apply Nat.mod_upper_bound; lia).
      destruct (nth_error (g_zones hz) m) as [z|] eqn:Ez; [|apply nth_error_None in Ez; lia].
      pose proof (Sz m z Ez) as Lz. fold m in Lz. fold q in Lz. destruct (Nat.ltb_spec m m); [lia|].
      destruct (z_faces hz z) as [|f fs] eqn:Efz; [cbn in Lz; lia|].
      assert (Hin : In f (z_faces hz z)) by (rewrite Efz; left; reflexivity).
      assert (Hj : nth_error (z_faces hz z) 0 = Some f) by (rewrite Efz; reflexivity).
      pose proof (place_of hl size hz m z 0 f I Ez Hj) as Hp. fold m in Hp. fold q in Hp.
      destruct (collected_places hl size hz hc _ f m z Hs I C Ez Hin Hp) as (g & Eg & V). fold m in Eg. destruct (Nat.ltb_spec m m); [lia|].
      exists f, g. split; [|split; [|split; [|exact V]]].
      - rewrite <- Gf. apply (zones_faces_in hz f Hok). eapply nth_error_In. exact Hp.
      - rewrite <- Gf. apply (zones_faces_in hz g Hok). eapply nth_error_In. exact Eg.
      - intros E. subst g. pose proof (zones_faces_nd hz Hok) as Ndz.
        assert (K : m * q + Nat.min m m + 0 = m * q + Nat.min m m + 0 - m).
        { apply (proj1 (NoDup_nth_error (flat_map (z_faces hz) (g_zones hz))) Ndz); [apply nth_error_Some; congruence|congruence]. }
        lia.
    Qed.

    (** The same height of ice everywhere on a flat surface: the number of ranks does not matter. *)
    Lemma run_flat : forall fixn o r n v N, crys_run plus real near before_reuse text rf size h fixn o r ->
      (forall p, In p (all_pts (zones_of evs)) -> used (zones_of evs) p) ->
      (forall f a b c, In f (g_faces hl) -> f_nodes hl f = [a; b; c] ->
         normal_orth (Tri (vect_of real (n_p hl a)) (vect_of real (n_p hl b)) (vect_of real (n_p hl c)) f) = Ok n) ->
      (forall f, In f (g_faces hl) -> var_value hl f (lit "Hi") = v) ->
      (Remesh.nss_steps o <= 0)%Z -> Remesh.pseudo_2d_oz o = false -> (0 < Remesh.nsmooth_k o)%R -> (0 <= Remesh.hsmooth_alfa o)%R ->
      (0 <= real (plus v 2))%R ->
      Remesh.calculate_nsteps o (topo_of hl) (st_of (iced plus hl)) = Ok N -> (1 <= N)%Z ->
      let q := if Remesh.rest_volume_redistr o then real (plus v 2) else (real (plus v 2) * RemeshSpec.harmonic (Z.to_nat N))%R in
      let pos := fun k => pt_of near (vadd (vect_of real (n_p hl k)) (vmul n q)) in
      apart pos hl ->
      exists hz out, in_zones hl size hz /\ r = Ok out /\ forall h0, exists h2, load true out h0 = (Ok tt, h2) /\
        same_surface pos (with_var recovery_factor (grid_vars hl)) (stored_value rf (near 0%R) hl) hz h2.
    Proof.
      intros fixn o r n v N Hr Hu Fl Hi O1 O2 O3 O4 O5 En N1 q pos Ap.
      destruct (loaded_good _ _ _ _ El Hf Nd) as (Ok1 & _). pose proof Ok1 as [T Zo].
      assert (W : RemeshSpec.whole (topo_of hl)).
      { apply loaded_whole; [exact Ok1|exact (faces_left text h hl evs Hf Nf El)|]. intros k Hk. apply (used_faces _ _ _ _ k El Hf Nd Hk). apply Hu. exact (load_pts _ _ _ _ k El Hf Hk). }
      assert (Ff : RemeshSpec.flat (topo_of hl) (st_of (iced plus hl)) n).
      { intros f Hfc. cbn [topo_of Remesh.faces] in Hfc. destruct (t_face_nodes hl T f Hfc) as (L & _ & _).
        unfold Remesh.get_triangle. cbn [topo_of Remesh.f_nodes]. unfold three.
        destruct (Heap.f_nodes hl f) as [|a [|b [|c [|]]]] eqn:Ef; try discriminate. apply (Fl f a b c Hfc Ef). }
      assert (Hic : forall f, In f (Remesh.faces (topo_of hl)) -> Remesh.f_hi (st_of (iced plus hl)) f = real (plus v 2)).
      { intros f Hfc. cbn [topo_of Remesh.faces] in Hfc. cbn [Programs.st_of Remesh.f_hi]. f_equal. unfold face_get, iced. cbn [set_f_data f_data].
        destruct (in_dec Nat.eq_dec f (g_faces hl)) as [_|N0]; [|contradiction]. rewrite PyLemmas.dget_dset. change Drops.kHi with (lit "Hi").
        destruct (str_dec (lit "Hi") (lit "Hi")) as [_|N0]; [|congruence]. rewrite (Hi f Hfc). reflexivity. }
      destruct (FlatProofs.flat_remesh o (topo_of hl) (st_of (iced plus hl)) n (real (plus v 2)) N W Ff O1 O2 O3 O4 O5 Hic En N1) as (s' & Er & Pos & _).
      assert (P : forall k, In k (g_nodes hl) -> pt_of near (Remesh.n_pos s' k) = pos k).
      { intros k Hk. rewrite (Pos k Hk). reflexivity. }
      pose proof (run_equal fixn o r Hr (or_intror (fun f g A B => eq_trans (Hi f A) (eq_sym (Hi g B))))) as K. rewrite Er in K. cbv zeta in K.
      destruct K as (hz & out & I & Eo & K).
      { intros a b Ha Hb Eab. rewrite (P a Ha), (P b Hb) in Eab. apply Ap; auto. }
      exists hz, out. split; [exact I|]. split; [exact Eo|]. pose proof I as (R & L & Gn & Gno & Ge & Gf & Np & Nfa & Efa & Fn & D & Sz).
      intros h0. destruct (K h0) as (h2 & E2 & S1 & S2 & S3 & S4). exists h2. split; [exact E2|].
      split; [exact S1|]. split; [exact S2|]. split; [exact S3|]. intros i z z' I1 I2. destruct (S4 i z z' I1 I2) as (T1 & T2 & T3).
      split; [exact T1|]. split; [exact T2|]. intros k f f' K1 K2. destruct (T3 k f f' K1 K2) as (U1 & U2). split; [|exact U2].
      rewrite U1. apply map_ext_in. intros x Hx. apply P.
      assert (Hfc : In f (g_faces hl)).
      { rewrite <- Gf. destruct R as ([T' Zo'] & _). apply (zo_faces hz Zo' z f); [eapply nth_error_In; exact I1|]. eapply nth_error_In. exact K1. }
      rewrite Fn in Hx. apply (t_face_nodes hl T f Hfc). exact Hx.
    Qed.
  End Run.
End CrysFinal.
