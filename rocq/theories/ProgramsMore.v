(** More proofs about remesh.py on a file: points without faces, and flat surfaces. *)

From Coq Require Import ZArith Reals Ascii String Bool Lia Lra List.
From Verif Require Import Py PyLemmas Heap HeapLemmas GridModel GridSpec Mpi MpiSpec GridIO FileSpec StoreSpec LoadMain LoadProps RoundTrip MergeProofs
  PlainProofs SamplesStore Atomic AtomicMain Geom Programs ProgramsSpec ProgramsProofs.
From Verif Require Remesh RemeshSpec RemeshProofs DirProofs StepsProofs FlatProofs RemeshMore Drops.
Import ListNotations.
Open Scope list_scope.
Open Scope nat_scope.

(** A node on no face: its direction cannot be found. *)
Lemma lone_node : forall o g s s' n, RemeshSpec.plain_topo g -> (1 <= Remesh.nsteps_min o)%Z -> In n (Remesh.nodes g) ->
  Remesh.n_faces g n = [] -> Remesh.remesh o g s <> Ok s'.
Proof.
  intros o g s s' n P K Hn Hf R. unfold Remesh.remesh in R.
  destruct (Remesh.plan_ice g s) as [s1|]; [|discriminate]. cbn [rbind] in R.
  destruct (Remesh.calculate_nsteps o g s1) as [k|] eqn:Ek; [|discriminate]. cbn [rbind] in R.
  apply StepsProofs.nsteps_bounds in Ek.
  destruct (if Remesh.pseudo_2d_oz o then _ else _); [|discriminate]. cbn [rbind] in R.
  destruct (Z.to_nat k) as [|m] eqn:Em; [lia|]. cbn [Remesh.steps] in R.
  destruct (Remesh.calc_ice_chunks _ _ _) as [s2|]; [|discriminate]. cbn [rbind] in R.
  destruct (Remesh.remesh_step o g s2) as [s3|] eqn:E3; [|discriminate]. unfold Remesh.remesh_step in E3.
  destruct (Remesh.init_ice_dirs g s2) as [s4|] eqn:E4; [|discriminate].
  destruct (DirProofs.init_ice_dirs_ok _ _ _ P E4) as (df & dn & _ & _ & D). specialize (D n Hn). rewrite Hf in D. cbn [map fold_left] in D.
  apply DirProofs.orth_ok in D as (D & _). apply D. unfold vmod, mod2, dot. cbn.
  replace (0 * 0 + 0 * 0 + 0 * 0)%R with 0%R by ring. apply sqrt_0.
Qed.

Section ProgramsMore.
  Context {F : FloatOps}.

  Lemma face_corner : forall zs h f n, holds_zones zs h -> In f (g_faces h) -> In n (f_nodes h f) ->
    exists t, In t (file_faces zs) /\ In (n_rc h n) t.
  Proof.
    intros zs h f n (L & G & K) Hf Hn. rewrite G in Hf. apply in_flat_map in Hf as (z & Hz & Hf).
    apply In_nth_error in Hz as [i Hi]. apply In_nth_error in Hf as [k Hk].
    assert (Li : i < List.length zs) by (rewrite <- L; apply nth_error_Some; congruence).
    destruct (nth_error zs i) as [zr|] eqn:Ez; [|apply nth_error_None in Ez; lia].
    destruct (K i z zr Hi Ez) as (_ & _ & K2). destruct (K2 k f Hk) as (_ & row & t & _ & Et & _ & C).
    exists (flat_map (fun o => match o with Some p => [rnd p] | None => [] end) (FileSpec.corners zr t)). split.
    - unfold file_faces. apply in_flat_map. exists zr. split; [eapply nth_error_In; exact Ez|].
      apply in_map_iff. exists t. split; [reflexivity|]. eapply nth_error_In. exact Et.
    - apply in_flat_map. clear - C Hn. induction C as [|o m os ms (p & -> & E) C IH]; [destruct Hn|].
      destruct Hn as [->|Hn].
      + exists (Some p). split; [left; auto|]. rewrite E. left. auto.
      + destruct (IH Hn) as (o & H1 & H2). exists o. split; [right; exact H1|exact H2].
  Qed.

  Lemma corner_face : forall zs h t r, holds_zones zs h -> In t (file_faces zs) -> In r t ->
    exists f n, In f (g_faces h) /\ In n (f_nodes h f) /\ n_rc h n = r.
  Proof.
    intros zs h t r (L & G & K) Ht Hr. unfold file_faces in Ht. apply in_flat_map in Ht as (zr & Hzr & Ht).
    apply in_map_iff in Ht as (c & <- & Hc). apply In_nth_error in Hzr as [i Hi]. apply In_nth_error in Hc as [k Hk].
    assert (Li : i < List.length (g_zones h)) by (rewrite L; apply nth_error_Some; congruence).
    destruct (nth_error (g_zones h) i) as [z|] eqn:Ez; [|apply nth_error_None in Ez; lia].
    destruct (K i z zr Ez Hi) as (_ & Lf & K2).
    assert (Lk : k < List.length (z_faces h z)) by (rewrite Lf; apply nth_error_Some; congruence).
    destruct (nth_error (z_faces h z) k) as [f|] eqn:Ef; [|apply nth_error_None in Ef; lia].
    destruct (K2 k f Ef) as (_ & row & c' & _ & Ec & _ & C). rewrite Hk in Ec. injection Ec as <-.
    apply in_flat_map in Hr as (o & Ho & Hr). exists f.
    assert (X : exists n, In n (f_nodes h f) /\ exists p, o = Some p /\ n_rc h n = rnd p).
    { clear - C Ho. induction C as [|o' m os ms E C IH]; [destruct Ho|]. destruct Ho as [->|Ho].
      - exists m. split; [left; auto|exact E].
      - destruct (IH Ho) as (n & H1 & H2). exists n. split; [right; auto|auto]. }
    destruct X as (n & Hn & p & -> & E). destruct Hr as [<-|[]]. exists n. split; [|split; auto].
    rewrite G. apply in_flat_map. exists z. split; eapply nth_error_In; eauto.
  Qed.

  (** Points and nodes with faces. *)
  Lemma used_faces : forall text h h1 evs n, load true text h = (Ok tt, h1) -> file_form [] (file_lines text) evs ->
    no_degenerate (zones_of evs) -> In n (g_nodes h1) -> (used (zones_of evs) (n_p h1 n) <-> n_faces h1 n <> []).
  Proof.
    intros text h h1 evs n E Hf Nd Hn. destruct (loaded_good _ _ _ _ E Hf Nd) as ([T Zo] & _ & _ & (Nm & _ & Rc)).
    destruct (load_contents_main _ _ _ _ _ E Hf) as (Hz & _).
    split.
    - intros (t & Ht & Hr) N. destruct (corner_face _ _ _ _ Hz Ht Hr) as (f & m & Hfc & Hm & Em).
      assert (Hm' : In m (g_nodes h1)) by (apply (t_face_nodes h1 T f Hfc); exact Hm).
      assert (m = n).
      { rewrite <- (Rc n Hn) in Em. clear - Nm Hm' Hn Em. induction (g_nodes h1) as [|x l IH]; [destruct Hn|].
        cbn [map] in Nm. apply NoDup_cons_iff in Nm as [N1 N2]. destruct Hm' as [->|Hm], Hn as [->|Hn]; auto.
        - exfalso. apply N1. rewrite Em. apply in_map. auto.
        - exfalso. apply N1. rewrite <- Em. apply in_map. auto. }
      subst m. apply (t_nf h1 T n f Hn Hfc) in Hm. rewrite N in Hm. destruct Hm.
    - intros N. destruct (n_faces h1 n) as [|f fs] eqn:En; [congruence|].
      assert (Hfc : In f (g_faces h1)) by (apply (t_node_faces h1 T n Hn); rewrite En; left; auto).
      assert (Hi : In n (f_nodes h1 f)) by (apply (t_nf h1 T n f Hn Hfc); rewrite En; left; auto).
      destruct (face_corner _ _ _ _ Hz Hfc Hi) as (t & Ht & Hr). exists t. split; [exact Ht|]. rewrite <- (Rc n Hn). exact Hr.
  Qed.

  Variables (real : val -> R) (near : R -> val).

  (** A point of the file that is a corner of no face: nothing is stored. *)
  Lemma lone_point : forall fixn o text h h1 evs p out h', load true text (new_grid h) = (Ok tt, h1) ->
    file_form [] (file_lines text) evs -> no_degenerate (zones_of evs) -> (1 <= Remesh.nsteps_min o)%Z ->
    In p (all_pts (zones_of evs)) -> ~ used (zones_of evs) p -> remesh_file real near fixn o text h <> (Ok out, h').
  Proof.
    intros fixn o text h h1 evs p out h' E Hf Nd K Hp Hu R.
    destruct (loaded_good _ _ _ _ E Hf Nd) as (Ok1 & _ & _ & (_ & _ & Rc)).
    apply In_nth_error in Hp as [j Hj]. destruct (load_representative_main _ _ _ _ _ _ E Hf Hj) as (n & Hn & En & _).
    assert (Nf : n_faces h1 n = []).
    { destruct (n_faces h1 n) as [|f fs] eqn:Ef; [reflexivity|]. exfalso. apply Hu.
      destruct (proj2 (used_faces _ _ _ _ n E Hf Nd Hn)) as (t & Ht & Hr); [rewrite Ef; discriminate|].
      exists t. split; [exact Ht|]. rewrite <- En, (Rc n Hn). exact Hr. }
    unfold remesh_file in R. rewrite bind_modify, (bind_run _ _ _ _ _ _ _ E) in R.
    assert (Mk : exists b k, (if fixn then mark_all_fixed_nodes else ret tt) h1 = (Ok tt, set_g_nborder (set_n_border h1 b) k)).
    { destruct fixn.
      - destruct (mark_all_ok h1) as (h1' & b & l & E1 & -> & _). eauto.
      - exists (n_border h1), (g_nborder h1). destruct h1; reflexivity. }
    destruct Mk as (b & k & Em). set (hb := set_g_nborder (set_n_border h1 b) k) in *.
    assert (X : exists e, remesh_grid real near fixn o h1 = (Raise e, hb)).
    { unfold remesh_grid. rewrite (bind_run _ _ _ _ _ _ _ Em), bind_gets.
      change (topo_of hb) with (topo_of h1). change (st_of real hb) with (st_of real h1).
      destruct (Remesh.remesh o (topo_of h1) (st_of real h1)) as [s'|e] eqn:Er.
      - exfalso. revert Er. apply (lone_node o _ _ _ n); auto. apply loaded_topo; auto.
      - exists e. reflexivity. }
    destruct X as [e X]. unfold bind at 1 in R. rewrite X in R. discriminate.
  Qed.

  Lemma load_pts : forall text h h1 evs n, load true text h = (Ok tt, h1) -> file_form [] (file_lines text) evs ->
    In n (g_nodes h1) -> In (n_p h1 n) (all_pts (zones_of evs)).
  Proof.
    intros text h h1 evs n E Hf Hn. destruct (load_nodes_main _ _ _ _ _ E Hf) as (Ep & _).
    assert (I : In (n_p h1 n) (map (n_p h1) (g_nodes h1))) by (apply in_map; exact Hn). rewrite Ep in I. clear Ep. unfold firsts in I.
    revert I. generalize (@nil rc). induction (all_pts (zones_of evs)) as [|q l IH]; intros seen I; [destruct I|]. cbn [firsts_from] in I.
    destruct (in_dec rc_dec (rnd q) seen); [right; eapply IH; exact I|]. destruct I as [->|I]; [left; auto|right; eapply IH; exact I].
  Qed.

  (** The same height of ice everywhere on a flat surface. *)
  Lemma flat_file : forall fixn o text h h1 evs n H N, faithful_numbers -> load true text (new_grid h) = (Ok tt, h1) ->
    file_form [] (file_lines text) evs -> no_degenerate (zones_of evs) -> g_faces h1 <> [] ->
    (forall p, In p (all_pts (zones_of evs)) -> used (zones_of evs) p) ->
    (forall f a b c, In f (g_faces h1) -> f_nodes h1 f = [a; b; c] ->
       normal_orth (Tri (vect_of real (n_p h1 a)) (vect_of real (n_p h1 b)) (vect_of real (n_p h1 c)) f) = Ok n) ->
    (forall f, In f (g_faces h1) -> real (face_get h1 f (lit "Hi")) = H) ->
    (Remesh.nss_steps o <= 0)%Z -> Remesh.pseudo_2d_oz o = false -> (0 < Remesh.nsmooth_k o)%R -> (0 <= Remesh.hsmooth_alfa o)%R -> (0 <= H)%R ->
    Remesh.calculate_nsteps o (topo_of h1) (st_of real h1) = Ok N -> (1 <= N)%Z ->
    let q := if Remesh.rest_volume_redistr o then H else (H * RemeshSpec.harmonic (Z.to_nat N))%R in
    let pos := fun k => pt_of near (vadd (vect_of real (n_p h1 k)) (vmul n q)) in
    apart pos h1 -> exists out h', remesh_file real near fixn o text h = (Ok out, h') /\
    forall h0, exists h2, load true out h0 = (Ok tt, h2) /\
      same_surface pos (with_var (lit "Hi") (grid_vars h1))
        (fun f v => if str_dec v (lit "Hi") then near 0%R else var_value h1 f v) h1 h2.
  Proof.
    intros fixn o text h h1 evs n H N Hn E Hf Nd Hne Hu Fl Hi O1 O2 O3 O4 O5 En N1 q pos Ap.
    destruct (loaded_good _ _ _ _ E Hf Nd) as (Ok1 & _). pose proof Ok1 as [T Zo].
    assert (W : RemeshSpec.whole (topo_of h1)).
    { apply loaded_whole; auto. intros k Hk. apply (used_faces _ _ _ _ k E Hf Nd Hk). apply Hu. eapply load_pts; eauto. }
    assert (Ff : RemeshSpec.flat (topo_of h1) (st_of real h1) n).
    { intros f Hfc. cbn [topo_of Remesh.faces] in Hfc. destruct (t_face_nodes h1 T f Hfc) as (L & _ & _).
      unfold Remesh.get_triangle. cbn [topo_of Remesh.f_nodes]. unfold three.
      destruct (f_nodes h1 f) as [|a [|b [|c [|]]]] eqn:Ef; try discriminate. apply (Fl f a b c Hfc Ef). }
    destruct (FlatProofs.flat_remesh o (topo_of h1) (st_of real h1) n H N W Ff O1 O2 O3 O4 O5 Hi En N1) as (s' & Er & Pos & _).
    assert (P : forall k, In k (g_nodes h1) -> pt_of near (Remesh.n_pos s' k) = pos k).
    { intros k Hk. rewrite (Pos k Hk). reflexivity. }
    destruct (remesh_file_ok real near fixn o text h h1 evs s' Hn E Hf Nd Hne Er) as (out & h' & E1 & K).
    { intros a b Ha Hb Eab. rewrite (P a Ha), (P b Hb) in Eab. apply Ap; auto. }
    exists out, h'. split; [exact E1|]. intros h0. destruct (K h0) as (h2 & E2 & S1 & S2 & S3 & S4). exists h2. split; [exact E2|].
    split; [exact S1|]. split; [exact S2|]. split; [exact S3|]. intros i z z' I1 I2. destruct (S4 i z z' I1 I2) as (T1 & T2 & T3).
    split; [exact T1|]. split; [exact T2|]. intros k f f' K1 K2. destruct (T3 k f f' K1 K2) as (U1 & U2). split; [|exact U2].
    rewrite U1. apply map_ext_in. intros m Hm. apply P.
    assert (Hfc : In f (g_faces h1)).
    { apply (zo_faces h1 Zo z f); [eapply nth_error_In; exact I1|]. eapply nth_error_In. exact K1. }
    apply (t_face_nodes h1 T f Hfc). exact Hm.
  Qed.
End ProgramsMore.
