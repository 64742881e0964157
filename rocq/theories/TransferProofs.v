(** Proofs about the programs interpolate.py and lazurit_add_beta_from_ansys.py. *)

From Coq Require Import ZArith Reals Ascii String Bool Lia Lra List.
From Verif Require Import Py PyLemmas Heap HeapLemmas GridModel GridSpec Mpi MpiSpec GridIO FileSpec StoreSpec LoadMain LoadProps RoundTrip MergeProofs
  PlainProofs SamplesStore Geom GeomSpec Drops DropsSpec DropsProofs Programs ProgramsSpec ProgramsProofs Convert ConvertSpec ConvertProofs Transfer TransferSpec.
Import ListNotations.
Open Scope list_scope.
Open Scope nat_scope.

Section TransferProofs.
  Context {F : FloatOps}.
  Variable real : val -> R.

  (** Faces of loaded grids have three nodes. *)
  Lemma loaded_three : forall text h h1, load true text h = (Ok tt, h1) ->
    forall f, In f (g_faces h1) -> exists a b c, f_nodes h1 f = [a; b; c].
  Proof.
    intros text h h1 E f Hf. destruct (load_form_main _ _ _ _ E) as (evs & Ff & _).
    destruct (load_contents_main _ _ _ _ _ E Ff) as ((L & Ef & Hz) & _ & _).
    rewrite Ef in Hf. apply in_flat_map in Hf as (z & Iz & If). apply In_nth_error in Iz as (i & Ei). apply In_nth_error in If as (k & Ek).
    destruct (nth_error (zones_of evs) i) as [zr|] eqn:Er.
    2: { apply nth_error_None in Er. assert (i < List.length (g_zones h1)) by (apply nth_error_Some; congruence). lia. }
    destruct (Hz i z zr Ei Er) as (_ & _ & Hk). destruct (Hk k f Ek) as (_ & row & [[a b] c] & _ & _ & _ & Fc). cbn [corners] in Fc.
    inversion Fc as [|? x ? l1 _ F1]; subst. inversion F1 as [|? y ? l2 _ F2]; subst. inversion F2 as [|? w ? l3 _ F3]; subst. inversion F3; subst.
    eauto.
  Qed.

  Lemma middle_of : forall h f a b c, f_nodes h f = [a; b; c] -> middle (dface_of real h f) = face_middle real h f.
  Proof.
    intros h f a b c E. unfold dface_of, face_middle. rewrite E. cbn [three map].
    destruct (n_p h a) as [[xa ya] za], (n_p h b) as [[xb yb] zb], (n_p h c) as [[xc yc] zc]. reflexivity.
  Qed.

  (** The data of a grid put in another way. *)
  Lemma puts_data : forall h d f k v, face_put (set_f_data h d) f k v = set_f_data h (upd d f (dset str_dec (d f) k v)).
  Proof. reflexivity. Qed.

  Lemma same_data : forall h, set_f_data h (f_data h) = h.
  Proof. intros []. reflexivity. Qed.

  Lemma load_grid_ok : forall text h h1, load_grid text h = Ok h1 -> load true text (new_grid h) = (Ok tt, h1).
  Proof. intros text h h1 E. unfold load_grid in E. destruct (load true text (new_grid h)) as [[[]|e] h']; [|discriminate]. congruence. Qed.

  (** The loop of interpolate.py. *)
  Lemma interpolate_loop : forall query hs ht fs d, finds_nearest query -> g_faces hs <> [] -> NoDup fs ->
    exists d' src, interpolate_faces real query hs fs (set_f_data ht d) = Ok (set_f_data ht d') /\
      (forall f, ~ In f fs -> d' f = d f) /\
      forall f, In f fs -> nearest (fun g => aux_node (dface_of real hs g)) (g_faces hs) (aux_node (dface_of real ht f)) (src f) /\
        d' f = dset str_dec (dset str_dec (d f) kT (face_get hs (src f) kT)) kHw (face_get hs (src f) kHw).
  Proof.
    intros query hs ht fs d Hq Hs. revert d. induction fs as [|f fs IH]; intros d N.
    - exists d, (fun _ => 0). split; [reflexivity|]. split; [auto|]. intros f [].
    - apply NoDup_cons_iff in N as [N1 N2]. cbn [interpolate_faces].
      change (dface_of real (set_f_data ht d) f) with
        (let '(a, b, c) := three (f_nodes ht f) in DFace (vect_of real (n_p ht a)) (vect_of real (n_p ht b)) (vect_of real (n_p ht c)) (map (fun kv => (fst kv, real (snd kv))) (d f))).
      set (p := aux_node _). assert (Ep : p = aux_node (dface_of real ht f)).
      { unfold p, dface_of. destruct (three (f_nodes ht f)) as [[a b] c]. reflexivity. }
      clearbody p. subst p.
      destruct (Hq (dual_points real hs) (aux_node (dface_of real ht f))) as (e & He & _ & Hn).
      { unfold dual_points. destruct (g_faces hs); cbn; congruence. }
      set (i := query _ _) in *. clearbody i. unfold dual_points in He. rewrite nth_error_map in He. destruct (nth_error (g_faces hs) i) as [g|] eqn:Eg; [|discriminate].
      cbn in He. injection He as <-. rewrite puts_data, puts_data.
      set (d1 := upd _ f _). destruct (IH d1 N2) as (d' & src & E & H1 & H2). exists d', (fun x => if Nat.eq_dec x f then g else src x).
      split; [exact E|].
      assert (Df : d1 f = dset str_dec (dset str_dec (d f) kT (face_get hs g kT)) kHw (face_get hs g kHw)).
      { unfold d1, upd. rewrite !Nat.eqb_refl. reflexivity. }
      assert (Do : forall x, x <> f -> d1 x = d x).
      { intros x Nx. unfold d1, upd. destruct (Nat.eqb_spec x f); [congruence|]. reflexivity. }
      split.
      + intros x Hx. rewrite H1 by (intros K; apply Hx; right; auto). apply Do. intros ->. apply Hx. left. auto.
      + intros x Hx. destruct (Nat.eq_dec x f) as [->|Nx].
        * split; [|rewrite H1 by auto; exact Df]. split; [eapply nth_error_In; exact Eg|]. intros y Hy. apply Hn. unfold dual_points. apply (in_map (fun f => aux_node (dface_of real hs f))). exact Hy.
        * destruct Hx as [Hx|Hx]; [congruence|]. destruct (H2 x Hx) as (A & B). split; [exact A|]. rewrite B, (Do x Nx). reflexivity.
  Qed.

  (** The loop of lazurit_add_beta_from_ansys.py. *)
  Lemma add_beta_loop : forall ha hl fs d, g_faces ha <> [] -> NoDup fs ->
    exists d' src, add_beta_faces real (adata real ha) fs (set_f_data hl d) = Ok (set_f_data hl d') /\
      (forall f, ~ In f fs -> d' f = d f) /\
      forall f, In f fs -> first_nearest (fun g => middle (dface_of real ha g)) (g_faces ha) (middle (dface_of real hl f)) (src f) /\
        d' f = dset str_dec (d f) kBeta (face_get ha (src f) kBeta).
  Proof.
    intros ha hl fs d Ha. revert d. induction fs as [|f fs IH]; intros d N.
    - exists d, (fun _ => 0). split; [reflexivity|]. split; [auto|]. intros f [].
    - apply NoDup_cons_iff in N as [N1 N2]. cbn [add_beta_faces].
      change (dface_of real (set_f_data hl d) f) with
        (let '(a, b, c) := three (f_nodes hl f) in DFace (vect_of real (n_p hl a)) (vect_of real (n_p hl b)) (vect_of real (n_p hl c)) (map (fun kv => (fst kv, real (snd kv))) (d f))).
      set (p := get_center _). assert (Ep : p = middle (dface_of real hl f)).
      { unfold p, dface_of. destruct (three (f_nodes hl f)) as [[a b] c]. reflexivity. }
      clearbody p. subst p. set (c := middle (dface_of real hl f)).
      destruct (argmin_ok (map (fun a => mod2 (vsub c (fst a))) (adata real ha))) as (i & b & E & Hb & Hm).
      { unfold adata. destruct (g_faces ha); cbn; congruence. }
      rewrite E. cbn [rbind]. rewrite nth_error_map in Hb.
      destruct (nth_error (adata real ha) i) as [a|] eqn:Ea; [|discriminate]. cbn in Hb. injection Hb as <-.
      unfold adata in Ea. rewrite nth_error_map in Ea. destruct (nth_error (g_faces ha) i) as [g|] eqn:Eg; [|discriminate].
      cbn in Ea. injection Ea as <-. cbn [fst snd] in *. rewrite puts_data.
      set (d1 := upd _ f _). destruct (IH d1 N2) as (d' & src & E1 & H1 & H2). exists d', (fun x => if Nat.eq_dec x f then g else src x).
      split; [exact E1|].
      assert (Df : d1 f = dset str_dec (d f) kBeta (face_get ha g kBeta)).
      { unfold d1, upd. rewrite !Nat.eqb_refl. reflexivity. }
      assert (Do : forall x, x <> f -> d1 x = d x).
      { intros x Nx. unfold d1, upd. destruct (Nat.eqb_spec x f); [congruence|]. reflexivity. }
      split.
      + intros x Hx. rewrite H1 by (intros K; apply Hx; right; auto). apply Do. intros ->. apply Hx. left. auto.
      + intros x Hx. destruct (Nat.eq_dec x f) as [->|Nx].
        * split; [|rewrite H1 by auto; exact Df].
          apply (nearest_at _ (fun g => middle (dface_of real ha g)) _ _ i); auto. intros k x Hk. rewrite nth_error_map in Hk.
          destruct (nth_error (g_faces ha) k) as [t|] eqn:Et; [|discriminate]. cbn in Hk. injection Hk as <-.
          destruct (Hm k (mod2 (vsub c (get_center (dface_of real ha t))))) as [L1 L2].
          { unfold adata. rewrite map_map, nth_error_map, Et. reflexivity. }
          rewrite (mod2_dist c (get_center (dface_of real ha g))), (mod2_dist c (get_center (dface_of real ha t))) in L1, L2.
          change get_center with middle in *. unfold vmod. split.
          -- apply sqrt_le_1; auto using mod2_nonneg.
          -- intros Q. apply sqrt_lt_1; auto using mod2_nonneg.
        * destruct Hx as [Hx|Hx]; [congruence|]. destruct (H2 x Hx) as (A & B). split; [exact A|]. rewrite B, (Do x Nx). reflexivity.
  Qed.

  (** A loaded grid with new data of faces, stored and loaded again. *)
  Lemma data_again : forall text h h1 evs d, faithful_numbers -> load true text (new_grid h) = (Ok tt, h1) ->
    file_form [] (file_lines text) evs -> no_degenerate (zones_of evs) -> g_faces h1 <> [] ->
    let hm := set_f_data h1 d in
    (forall k, In k (grid_vars hm) -> plain_var k) -> NoDup (grid_vars hm) ->
    exists out, store hm = Ok out /\ forall h0, exists h2, load true out h0 = (Ok tt, h2) /\
      same_surface (n_p h1) (grid_vars hm) (fun f v => match dget str_dec (d f) v with Some x => x | None => val0 end) h1 h2.
  Proof.
    intros text h h1 evs d Hn E Hf Nd Hne hm Pv Nv. destruct (loaded_good _ _ _ _ E Hf Nd) as (Ok1 & Zl & Nb & Nm).
    assert (W : writable h1).
    { apply (loaded_writable _ _ _ _ E Hf Hne). apply (loaded_names _ _ _ _ _ E Hf). right. intros c []. }
    assert (Ap : ProgramsSpec.apart (n_p h1) h1).
    { destruct Nm as (N1 & _ & N3). intros a b Ia Ib Er. rewrite <- (N3 a Ia), <- (N3 b Ib) in Er.
      destruct (In_nth_error _ _ Ia) as (i & Ei). destruct (In_nth_error _ _ Ib) as (j & Ej).
      assert (i = j).
      { apply (proj1 (NoDup_nth_error _) N1); [rewrite map_length; apply nth_error_Some; congruence|].
        rewrite !nth_error_map, Ei, Ej. cbn. congruence. }
      subst. congruence. }
    assert (Es : set_n_p h1 (n_p h1) = h1) by (destruct h1; reflexivity).
    destruct (moved_again h1 (n_p h1) d Hn Ok1 Zl Nb W Ap) as (out & Eo & K); rewrite ?Es; auto.
    rewrite Es in *. eauto.
  Qed.

  Lemma plain_T : plain_var kT. Proof. apply plain_varb_ok. vm_compute. reflexivity. Qed.
  Lemma plain_Hw : plain_var kHw. Proof. apply plain_varb_ok. vm_compute. reflexivity. Qed.
  Lemma plain_Beta : plain_var kBeta. Proof. apply plain_varb_ok. vm_compute. reflexivity. Qed.

  Lemma same_surface_ext : forall p vars v1 v2 h h', zones_ok h -> (forall f v, In f (g_faces h) -> v1 f v = v2 f v) ->
    same_surface p vars v1 h h' -> same_surface p vars v2 h h'.
  Proof.
    intros p vars v1 v2 h h' Zo H (S1 & S2 & S3 & S4). split; [exact S1|]. split; [exact S2|]. split; [exact S3|].
    intros i z z' Hi Hi'. destruct (S4 i z z' Hi Hi') as (T1 & T2 & T3). split; [exact T1|]. split; [exact T2|].
    intros j f f' Hj Hj'. destruct (T3 j f f' Hj Hj') as (U1 & U2 & U3). split; [exact U1|]. split; [exact U2|].
    intros v Hv. rewrite (U3 v Hv). f_equal. apply H. apply (zo_faces h Zo z f); eapply nth_error_In; eauto.
  Qed.

  Theorem interpolate_ok : forall query source target h1 h2 hs ht, finds_nearest query -> faithful_numbers ->
    load true source (new_grid h1) = (Ok tt, hs) -> g_faces hs <> [] ->
    forall evs, load true target (new_grid h2) = (Ok tt, ht) -> file_form [] (file_lines target) evs -> no_degenerate (zones_of evs) -> g_faces ht <> [] ->
    exists out src, interpolate_program real query source target h1 h2 = Ok out /\
      (forall f, In f (g_faces ht) -> near_face real hs ht f (src f)) /\
      forall h0, exists h3, load true out h0 = (Ok tt, h3) /\
        same_surface (n_p ht) (with_var (lit "Hw") (with_var (lit "T") (grid_vars ht)))
          (fun f => from_face [lit "T"; lit "Hw"] hs ht (src f) f) ht h3.
  Proof.
    intros query source target h1 h2 hs ht Hq Hn Es Hs evs Et Hf Nd Hne.
    destruct (loaded_good _ _ _ _ Et Hf Nd) as ([T Zo] & _).
    destruct (interpolate_loop query hs ht (g_faces ht) (f_data ht) Hq Hs (t_faces_nd ht T)) as (d & src & El & _ & Hd). rewrite same_data in El.
    assert (W : writable ht).
    { apply (loaded_writable _ _ _ _ Et Hf Hne). apply (loaded_names _ _ _ _ _ Et Hf). right. intros c []. }
    assert (Gv : grid_vars (set_f_data ht d) = with_var kHw (with_var kT (grid_vars ht))).
    { unfold grid_vars. change (g_faces (set_f_data ht d)) with (g_faces ht). change (f_data (set_f_data ht d)) with d.
      destruct (g_faces ht) as [|f fs] eqn:Ef; [congruence|]. destruct (Hd f) as (_ & ->); [left; auto|]. rewrite !keys_dset. reflexivity. }
    destruct W as (W1 & W2 & W3 & W4 & W5).
    destruct (data_again target h2 ht evs d Hn Et Hf Nd Hne) as (out & Eo & K).
    { rewrite Gv. intros k Hk. apply with_var_in in Hk as [->|Hk]; [exact plain_Hw|]. apply with_var_in in Hk as [->|Hk]; [exact plain_T|]. auto. }
    { rewrite Gv. apply with_var_nodup, with_var_nodup. exact W5. }
    exists out, src. split; [|split].
    - unfold interpolate_program, load_grid. rewrite Es. cbn [rbind]. rewrite Et. cbn [rbind]. rewrite El. cbn [rbind]. exact Eo.
    - intros f Hi. destruct (Hd f Hi) as ((I1 & I2) & _). split; [exact I1|]. intros g Hg.
      destruct (loaded_three _ _ _ Es _ I1) as (a & b & c & N1). destruct (loaded_three _ _ _ Es _ Hg) as (a2 & b2 & c2 & N2).
      destruct (loaded_three _ _ _ Et _ Hi) as (a3 & b3 & c3 & N3).
      rewrite <- (middle_of _ _ _ _ _ N1), <- (middle_of _ _ _ _ _ N2), <- (middle_of _ _ _ _ _ N3), <- !aux_middle. apply I2. exact Hg.
    - intros h0. destruct (K h0) as (h3 & E3 & S). exists h3. split; [exact E3|]. rewrite Gv in S.
      eapply same_surface_ext; [exact Zo| |exact S]. intros f v Hi. cbv beta. destruct (Hd f Hi) as (_ & ->).
      rewrite !ProgramsProofs.dget_dset. unfold from_face. change (lit "T") with kT. change (lit "Hw") with kHw.
      destruct (str_dec v kHw) as [->|N1].
      + destruct (in_dec str_dec kHw [kT; kHw]) as [_|N]; [reflexivity|]. exfalso. apply N. cbn. auto.
      + destruct (str_dec v kT) as [->|N2].
        * destruct (in_dec str_dec kT [kT; kHw]) as [_|N]; [reflexivity|]. exfalso. apply N. cbn. auto.
        * destruct (in_dec str_dec v [kT; kHw]) as [[N|[N|[]]]|_]; [congruence|congruence|]. reflexivity.
  Qed.

  Theorem add_beta_program_ok : forall lazurit ansys h1 h2 hl ha, faithful_numbers ->
    load true ansys (new_grid h2) = (Ok tt, ha) -> g_faces ha <> [] ->
    forall evs, load true lazurit (new_grid h1) = (Ok tt, hl) -> file_form [] (file_lines lazurit) evs -> no_degenerate (zones_of evs) -> g_faces hl <> [] ->
    exists out src, add_beta_program real lazurit ansys h1 h2 = Ok out /\
      (forall f, In f (g_faces hl) -> first_near_face real ha hl f (src f)) /\
      forall h0, exists h3, load true out h0 = (Ok tt, h3) /\
        same_surface (n_p hl) (with_var (lit "Beta") (grid_vars hl)) (fun f => from_face [lit "Beta"] ha hl (src f) f) hl h3.
  Proof.
    intros lazurit ansys h1 h2 hl ha Hn Ea Ha evs El Hf Nd Hne.
    destruct (loaded_good _ _ _ _ El Hf Nd) as ([T Zo] & _).
    destruct (add_beta_loop ha hl (g_faces hl) (f_data hl) Ha (t_faces_nd hl T)) as (d & src & Ed & _ & Hd). rewrite same_data in Ed.
    assert (W : writable hl).
    { apply (loaded_writable _ _ _ _ El Hf Hne). apply (loaded_names _ _ _ _ _ El Hf). right. intros c []. }
    assert (Gv : grid_vars (set_f_data hl d) = with_var kBeta (grid_vars hl)).
    { unfold grid_vars. change (g_faces (set_f_data hl d)) with (g_faces hl). change (f_data (set_f_data hl d)) with d.
      destruct (g_faces hl) as [|f fs] eqn:Ef; [congruence|]. destruct (Hd f) as (_ & ->); [left; auto|]. rewrite !keys_dset. reflexivity. }
    destruct W as (W1 & W2 & W3 & W4 & W5).
    destruct (data_again lazurit h1 hl evs d Hn El Hf Nd Hne) as (out & Eo & K).
    { rewrite Gv. intros k Hk. apply with_var_in in Hk as [->|Hk]; [exact plain_Beta|]. auto. }
    { rewrite Gv. apply with_var_nodup. exact W5. }
    exists out, src. split; [|split].
    - unfold add_beta_program, load_grid. rewrite El. cbn [rbind]. rewrite Ea. cbn [rbind]. rewrite Ed. cbn [rbind]. exact Eo.
    - intros f Hi. destruct (Hd f Hi) as ((l1 & l2 & El2 & I1 & I2) & _). exists l1, l2. split; [exact El2|].
      assert (M : forall g, In g (g_faces ha) -> middle (dface_of real ha g) = face_middle real ha g).
      { intros g Hg. destruct (loaded_three _ _ _ Ea _ Hg) as (a & b & c & N1). apply (middle_of _ _ _ _ _ N1). }
      destruct (loaded_three _ _ _ El _ Hi) as (a3 & b3 & c3 & N3). rewrite <- (middle_of _ _ _ _ _ N3).
      rewrite <- (M (src f)) by (rewrite El2, in_app_iff; right; left; auto).
      split; intros x Hx; rewrite <- (M x) by (rewrite El2, in_app_iff; cbn; auto); auto.
    - intros h0. destruct (K h0) as (h3 & E3 & S). exists h3. split; [exact E3|]. rewrite Gv in S.
      eapply same_surface_ext; [exact Zo| |exact S]. intros f v Hi. cbv beta. destruct (Hd f Hi) as (_ & ->).
      rewrite !ProgramsProofs.dget_dset. unfold from_face. change (lit "Beta") with kBeta.
      destruct (str_dec v kBeta) as [->|N1].
      + destruct (in_dec str_dec kBeta [kBeta]) as [_|N]; [reflexivity|]. exfalso. apply N. cbn. auto.
      + destruct (in_dec str_dec v [kBeta]) as [[N|[]]|_]; [congruence|]. reflexivity.
  Qed.

  (** A source without faces. *)
  Lemma interpolate_nothing : forall query source target h1 h2 hs ht,
    load true source (new_grid h1) = (Ok tt, hs) -> g_faces hs = [] -> load true target (new_grid h2) = (Ok tt, ht) -> g_faces ht <> [] ->
    interpolate_program real query source target h1 h2 = Raise EIndexError.
  Proof.
    intros query source target h1 h2 hs ht Es Hs Et Ht. unfold interpolate_program, load_grid. rewrite Es. cbn [rbind]. rewrite Et. cbn [rbind].
    destruct (g_faces ht) as [|f fs]; [congruence|]. cbn [interpolate_faces]. rewrite Hs. destruct (query _ _); reflexivity.
  Qed.

  Lemma add_beta_nothing : forall lazurit ansys h1 h2 hl ha,
    load true ansys (new_grid h2) = (Ok tt, ha) -> g_faces ha = [] -> load true lazurit (new_grid h1) = (Ok tt, hl) -> g_faces hl <> [] ->
    add_beta_program real lazurit ansys h1 h2 = Raise EValueError.
  Proof.
    intros lazurit ansys h1 h2 hl ha Es Hs Et Ht. unfold add_beta_program, load_grid. rewrite Et. cbn [rbind]. rewrite Es. cbn [rbind].
    destruct (g_faces hl) as [|f fs]; [congruence|]. cbn [add_beta_faces]. unfold adata. rewrite Hs. reflexivity.
  Qed.

  (** Variables that the source does not have. *)
  Lemma surface_all : forall p vars value h h' k x, zones_ok h -> In k vars -> (forall f, In f (g_faces h) -> value f k = x) ->
    same_surface p vars value h h' -> forall z f, In z (g_zones h') -> In f (z_faces h' z) -> dget str_dec (f_data h' f) k = Some x.
  Proof.
    intros p vars value h h' k x Zo Hk Hx (_ & S2 & _ & S4) z' f' Hz Hf.
    apply In_nth_error in Hz as (i & Ei). apply In_nth_error in Hf as (j & Ej).
    destruct (nth_error (g_zones h) i) as [z|] eqn:Ez.
    2: { apply nth_error_None in Ez. assert (i < List.length (g_zones h')) by (apply nth_error_Some; congruence). lia. }
    destruct (S4 i z z' Ez Ei) as (_ & T2 & T3).
    destruct (nth_error (z_faces h z) j) as [f|] eqn:Ef.
    2: { apply nth_error_None in Ef. assert (j < List.length (z_faces h' z')) by (apply nth_error_Some; congruence). lia. }
    destruct (T3 j f f' Ef Ej) as (_ & _ & U3). rewrite (U3 k Hk). f_equal. apply Hx. apply (zo_faces h Zo z f); eapply nth_error_In; eauto.
  Qed.

  Theorem interpolate_missing : forall query source target h1 h2 hs ht, finds_nearest query -> faithful_numbers ->
    load true source (new_grid h1) = (Ok tt, hs) -> g_faces hs <> [] ->
    forall evs, load true target (new_grid h2) = (Ok tt, ht) -> file_form [] (file_lines target) evs -> no_degenerate (zones_of evs) -> g_faces ht <> [] ->
    forall k, In k [lit "T"; lit "Hw"] -> (forall g, In g (g_faces hs) -> dget str_dec (f_data hs g) k = None) ->
    exists out, interpolate_program real query source target h1 h2 = Ok out /\
      forall h0, exists h3, load true out h0 = (Ok tt, h3) /\
        forall z f, In z (g_zones h3) -> In f (z_faces h3 z) -> dget str_dec (f_data h3 f) k = Some val0.
  Proof.
    intros query source target h1 h2 hs ht Hq Hn Es Hs evs Et Hf Nd Hne k Hk Hm.
    destruct (loaded_good _ _ _ _ Et Hf Nd) as ([_ Zo] & _).
    destruct (interpolate_ok query source target h1 h2 hs ht Hq Hn Es Hs evs Et Hf Nd Hne) as (out & src & E & Hsrc & K).
    exists out. split; [exact E|]. intros h0. destruct (K h0) as (h3 & E3 & S). exists h3. split; [exact E3|].
    apply (surface_all _ _ _ _ _ k val0 Zo) with (3 := S).
    - apply with_var_in. destruct Hk as [<-|[<-|[]]]; [right; apply with_var_in; auto|auto].
    - intros f Hi. unfold from_face. destruct (in_dec str_dec k _) as [_|N]; [|contradiction]. unfold var_value. rewrite Hm; [reflexivity|]. apply (Hsrc f Hi).
  Qed.

  Theorem beta_missing : forall lazurit ansys h1 h2 hl ha, faithful_numbers ->
    load true ansys (new_grid h2) = (Ok tt, ha) -> g_faces ha <> [] ->
    forall evs, load true lazurit (new_grid h1) = (Ok tt, hl) -> file_form [] (file_lines lazurit) evs -> no_degenerate (zones_of evs) -> g_faces hl <> [] ->
    (forall g, In g (g_faces ha) -> dget str_dec (f_data ha g) (lit "Beta") = None) ->
    exists out, add_beta_program real lazurit ansys h1 h2 = Ok out /\
      forall h0, exists h3, load true out h0 = (Ok tt, h3) /\
        forall z f, In z (g_zones h3) -> In f (z_faces h3 z) -> dget str_dec (f_data h3 f) (lit "Beta") = Some val0.
  Proof.
    intros lazurit ansys h1 h2 hl ha Hn Ea Ha evs El Hf Nd Hne Hm.
    destruct (loaded_good _ _ _ _ El Hf Nd) as ([_ Zo] & _).
    destruct (add_beta_program_ok lazurit ansys h1 h2 hl ha Hn Ea Ha evs El Hf Nd Hne) as (out & src & E & Hsrc & K).
    exists out. split; [exact E|]. intros h0. destruct (K h0) as (h3 & E3 & S). exists h3. split; [exact E3|].
    apply (surface_all _ _ _ _ _ (lit "Beta") val0 Zo) with (3 := S).
    - apply with_var_in. auto.
    - intros f Hi. unfold from_face. destruct (in_dec str_dec (lit "Beta") _) as [_|N]; [|exfalso; apply N; left; auto]. unfold var_value. rewrite Hm; [reflexivity|].
      destruct (Hsrc f Hi) as (l1 & l2 & -> & _). apply in_app_iff. right. left. auto.
  Qed.
End TransferProofs.
