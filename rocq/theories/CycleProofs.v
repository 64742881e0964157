(** Proofs about the cycle split - solver - merge. *)

From Coq Require Import ZArith Ascii String Bool Lia List Permutation.
From Verif Require Import Py PyLemmas Heap HeapLemmas GridModel GridSpec DecompSpec DecompProofs AssignProofs DecompMain Mpi MpiSpec MpiProofs GridIO FileSpec StoreSpec LoadParse
  LoadPlace LoadMain LoadFresh LoadProps RoundTrip PlainProofs SamplesStore Driver DriverSpec MergeProofs StrategyProofs CycleSpec.
From Verif Require ZamProofs.
Import ListNotations.
Open Scope list_scope.
Open Scope nat_scope.

Section CycleProofs.
  Context {F : FloatOps}.

  (** All faces of a file in order: variables, values, corners. *)
  Definition flat (zs : list zone_rec) : list (list str * list val * list (option pt)) :=
    flat_map (fun zr => map (fun rt => (zr_vars zr, fst rt, FileSpec.corners zr (snd rt))) (combine (zr_data zr) (zr_conn zr))) zs.

  Lemma f2_flat : forall A B C D (R : A -> B -> Prop) (f : C -> list A) (g : D -> list B) l l',
    Forall2 (fun c d => Forall2 R (f c) (g d)) l l' -> Forall2 R (flat_map f l) (flat_map g l').
  Proof.
    intros A B C D R f g l l' H. induction H as [|c d l l' H1 H IH]; [constructor|]. cbn [flat_map]. apply Forall2_app; auto.
  Qed.

  Lemma nth_combine : forall A B (l : list A) (l' : list B) i a b, nth_error l i = Some a -> nth_error l' i = Some b ->
    nth_error (combine l l') i = Some (a, b).
  Proof.
    intros A B l. induction l as [|x l IH]; intros [|y l'] [|i] a b H1 H2; cbn in *; try discriminate; [congruence|]. apply IH; auto.
  Qed.

  Lemma nth_f2 : forall A B (R : A -> B -> Prop) l l' i a b, Forall2 R l l' -> nth_error l i = Some a -> nth_error l' i = Some b -> R a b.
  Proof.
    intros A B R l l' i a b H. revert i. induction H as [|x y l l' H1 H IH]; intros [|i] H2 H3; cbn in *; try discriminate.
    - congruence.
    - apply (IH i); auto.
  Qed.

  Lemma holds_flat : forall zs h, (forall zr, In zr zs -> length (zr_data zr) = length (zr_conn zr)) -> holds_zones zs h ->
    Forall2 (fun f x => f_data h f = dict_of str_dec (combine (fst (fst x)) (snd (fst x))) /\
      Forall2 (fun o n => exists p, o = Some p /\ n_rc h n = rnd p) (snd x) (f_nodes h f)) (g_faces h) (flat zs).
  Proof.
    intros zs h Hl (L & Eg & H). rewrite Eg. unfold flat. apply f2_flat. apply Forall2_by_nth; [exact L|].
    intros i z zr Hz Hzr. destruct (H i z zr Hz Hzr) as (_ & Lf & Hf). pose proof (Hl zr (nth_error_In _ _ Hzr)) as Ld.
    apply Forall2_by_nth; [rewrite map_length, combine_length; lia|].
    intros k f x Hk Hx. destruct (Hf k f Hk) as (_ & row & t & H1 & H2 & H3 & H4).
    rewrite nth_error_map, (nth_combine _ _ _ _ _ _ _ H1 H2) in Hx. cbn [option_map] in Hx. injection Hx as <-. cbn [fst snd]. auto.
  Qed.

  Lemma combine_map_r : forall A B C (f : A * B -> C) (g : B -> C) (l : list A) (l' : list B), (forall a b, f (a, b) = g b) -> length l = length l' ->
    map f (combine l l') = map g l'.
  Proof.
    intros A B C f g l. induction l as [|a l IH]; intros [|b l'] H L; try discriminate L; [reflexivity|].
    cbn. rewrite H. f_equal. apply IH; auto.
  Qed.
  Lemma combine_map_l : forall A B C (f : A * B -> C) (g : A -> C) (l : list A) (l' : list B), (forall a b, f (a, b) = g a) -> length l = length l' ->
    map f (combine l l') = map g l.
  Proof.
    intros A B C f g l. induction l as [|a l IH]; intros [|b l'] H L; try discriminate L; [reflexivity|].
    cbn. rewrite H. f_equal. apply IH; auto.
  Qed.

  Lemma flat_corners : forall zs, (forall zr, In zr zs -> length (zr_data zr) = length (zr_conn zr)) ->
    map snd (flat zs) = flat_map (fun zr => map (FileSpec.corners zr) (zr_conn zr)) zs.
  Proof.
    intros zs. induction zs as [|zr zs IH]; intros H; [reflexivity|]. unfold flat in *. cbn [flat_map]. rewrite map_app, map_map, IH by (intros; apply H; right; auto).
    f_equal. apply combine_map_r; [reflexivity|]. apply H. left. auto.
  Qed.

  Lemma with_rows_lengths : forall vars zs rows, length rows = faces_in zs ->
    forall zr, In zr (with_rows vars rows zs) -> length (zr_data zr) = length (zr_conn zr).
  Proof.
    intros vars zs. induction zs as [|z zs IH]; intros rows L zr H; [destruct H|]. unfold faces_in in L. cbn [map list_sum fold_right] in L.
    cbn [with_rows] in H. destruct H as [<-|H].
    - cbn. rewrite firstn_length. lia.
    - apply (IH (skipn (length (zr_conn z)) rows)); auto. rewrite skipn_length. unfold faces_in, list_sum. lia.
  Qed.

  Lemma flat_with_rows : forall vars zs rows, length rows = faces_in zs ->
    map snd (flat (with_rows vars rows zs)) = flat_map (fun zr => map (FileSpec.corners zr) (zr_conn zr)) zs /\
    map fst (flat (with_rows vars rows zs)) = map (pair vars) rows.
  Proof.
    intros vars zs rows L. split.
    - rewrite flat_corners by (apply with_rows_lengths; auto). clear L. revert rows. induction zs as [|z zs IH]; intros rows; [reflexivity|].
      cbn [with_rows flat_map]. f_equal. apply IH.
    - revert rows L. induction zs as [|z zs IH]; intros rows L.
      { destruct rows; [reflexivity|discriminate L]. }
      unfold faces_in in L. cbn [map list_sum fold_right] in L. unfold flat in *. cbn [with_rows flat_map zr_vars zr_data zr_conn]. rewrite map_app, map_map.
      rewrite (combine_map_l _ _ _ _ (pair vars)); [|reflexivity|rewrite firstn_length; lia].
      rewrite IH by (rewrite skipn_length; unfold faces_in, list_sum; lia). rewrite <- map_app, firstn_skipn. reflexivity.
  Qed.

  (** A merged grid: the face with number [k] has the [k]-th row and the corners of the [k]-th face of the file. *)
  Lemma merged_face : forall title zs vars rows h2 hl k f row, length rows = faces_in zs -> (forall zr, In zr zs -> length (zr_data zr) = length (zr_conn zr)) ->
    merged_grid title zs vars rows h2 -> holds_zones zs hl ->
    nth_error (g_faces hl) k = Some f -> nth_error rows k = Some row ->
    exists f2, nth_error (g_faces h2) k = Some f2 /\ f_data h2 f2 = dict_of str_dec (combine vars row) /\
      map (n_rc h2) (f_nodes h2 f2) = map (n_rc hl) (f_nodes hl f).
  Proof.
    intros title zs vars rows h2 hl k f row L Hl (_ & H2 & _ & _) H1 Hf Hr.
    pose proof (holds_flat _ _ Hl H1) as F1. pose proof (holds_flat _ _ (with_rows_lengths vars zs rows L) H2) as F2.
    destruct (flat_with_rows vars zs rows L) as [S2 S1]. rewrite <- (flat_corners zs Hl) in S2.
    assert (Lg : length (g_faces h2) = length (flat (with_rows vars rows zs))) by (clear - F2; induction F2; cbn; auto).
    assert (Lk : k < length (flat (with_rows vars rows zs))).
    { rewrite <- (map_length fst), S1, map_length. apply nth_error_Some. congruence. }
    destruct (nth_error (g_faces h2) k) as [f2|] eqn:E2; [|apply nth_error_None in E2; lia].
    destruct (nth_error (flat (with_rows vars rows zs)) k) as [x2|] eqn:X2; [|apply nth_error_None in X2; lia].
    assert (Lg1 : length (g_faces hl) = length (flat zs)) by (clear - F1; induction F1; cbn; auto).
    destruct (nth_error (flat zs) k) as [x1|] eqn:X1.
    2:{ apply nth_error_None in X1. assert (k < length (g_faces hl)) by (apply nth_error_Some; congruence). lia. }
    pose proof (nth_f2 _ _ _ _ _ _ _ _ F1 Hf X1) as [_ C1]. pose proof (nth_f2 _ _ _ _ _ _ _ _ F2 E2 X2) as [D2 C2].
    assert (Es : snd x2 = snd x1).
    { pose proof (map_nth_error snd _ _ X2) as Q2. pose proof (map_nth_error snd _ _ X1) as Q1. rewrite S2 in Q2. congruence. }
    assert (Ef : fst x2 = (vars, row)).
    { pose proof (map_nth_error fst _ _ X2) as Q2. rewrite S1, (map_nth_error (pair vars) _ _ Hr) in Q2. congruence. }
    exists f2. split; [reflexivity|]. split; [rewrite D2, Ef; reflexivity|]. rewrite Es in C2. clear - C1 C2.
    revert C2. generalize (f_nodes h2 f2). induction C1 as [|o n os ns (p & E & Q) C1 IH]; intros ms C2; inversion C2 as [|? m ? ms' (p' & E' & Q') C2']; subst.
    - reflexivity.
    - cbn [map]. f_equal; [congruence|]. apply IH. exact C2'.
  Qed.

  (** The rows of all tables by number. *)
  Lemma rows_of : forall (T : list (Z * list val)) n, Permutation (map fst T) (map Z.of_nat (seq 0 n)) ->
    exists rows, length rows = n /\ Permutation T (combine (map Z.of_nat (seq 0 n)) rows).
  Proof.
    intros T n P. apply Permutation_sym in P. apply Permutation_map_inv in P as (T' & E & P). exists (map snd T').
    assert (L : length T' = n).
    { apply (f_equal (@length Z)) in E. rewrite !map_length, seq_length in E. auto. }
    split; [rewrite map_length; exact L|]. rewrite E.
    replace (combine (map fst T') (map snd T')) with T'; [exact P|]. clear. induction T' as [|[a b] T' IH]; [reflexivity|]. cbn. f_equal. exact IH.
  Qed.

  Lemma cry_nodes : forall h z m ks ns, mf_coords m = map (fun c => map (fun n => coord c (n_p h n)) (z_nodes h z)) [0; 1; 2] ->
    positions (z_nodes h z) ns ks -> forall ps, Forall2 (cry_node m) ks ps -> ps = map (n_p h) ns.
  Proof.
    intros h z m ks ns Hc H. induction H as [|n k ns ks [H0 H1] H IH]; intros ps Hp; inversion Hp as [|? p ? ps' Q Hp']; subst; [reflexivity|].
    cbn [map]. f_equal; [|apply IH; exact Hp']. destruct Q as (xs & ys & zs & E & _ & Q). rewrite Hc in E. cbn [map] in E. injection E as E1 E2 E3.
    destruct p as [[x y] w]. destruct Q as (Qx & Qy & Qz). subst xs ys zs.
    rewrite (map_nth_error (fun n => coord 0 (n_p h n)) _ _ H1) in Qx. rewrite (map_nth_error (fun n => coord 1 (n_p h n)) _ _ H1) in Qy.
    rewrite (map_nth_error (fun n => coord 2 (n_p h n)) _ _ H1) in Qz. destruct (n_p h n) as [[a b] c]. cbn in Qx, Qy, Qz. congruence.
  Qed.

  (** The rows of the tables by number cover the grid, and a grid merged from them has for the face
      with number [g] the corners of the file for the solver and the values computed for it. *)
  Lemma cycle_core : forall text strat fixed rf h hs ms evs vars txts tabs, order_ok ->
    file_form [] (file_lines text) evs -> no_degenerate (zones_of evs) ->
    split (Some text) (lit ".dat") strat fixed rf ToMpi h = (Ok (WMpi ms), hs) -> NoDup vars ->
    length txts = length ms -> length tabs = length ms ->
    (forall i m t tab, nth_error ms i = Some m -> nth_error txts i = Some t -> nth_error tabs i = Some tab -> computed vars m t tab) ->
    ~ three_share (zones_of evs) /\ exists rows, covering (zones_of evs) txts vars rows /\
      forall title out h1 h2, load true out h1 = (Ok tt, h2) -> merged_grid title (zones_of evs) vars rows h2 ->
        length (g_faces h2) = faces_in (zones_of evs) /\
        forall i m t tab j g ps vs, nth_error ms i = Some m -> nth_error txts i = Some t -> nth_error tabs i = Some tab ->
          cry_face m j g ps -> In (g, vs) tab ->
          exists f, (0 <= g)%Z /\ nth_error (g_faces h2) (Z.to_nat g) = Some f /\ map (n_p h2) (f_nodes h2 f) = ps /\
            f_data h2 f = dict_of str_dec (combine vars vs).
  Proof.
    intros text strat fixed rf h hs ms evs vars txts tabs Ho Hf Nd Es Nv Lx Lt Hc.
    apply split_inv in Es as (_ & Es & Ew). apply split_decompose_inv in Es as (hl & hr & st & El & _ & Hr & _ & Ed).
    destruct (loaded_good _ _ _ _ El Hf Nd) as (Hok & Hl & Hnb & Hm).
    destruct (load_result _ _ _ _ _ El Hf) as [Ld _]. pose proof (faces_count _ _ (ld_zones _ _ _ Ld)) as Ec.
    pose proof (completed_ok _ _ _ Hr Hok) as Hokr. pose proof (decompose_by_decomposed _ _ _ _ Hokr Ho Ed) as (M & _ & Zk & Lk & _).
    assert (Hnr : numbered hr) by (destruct Hr as [-> _]; exact Hnb).
    assert (Fr : g_faces hr = g_faces hl /\ f_glo hr = f_glo hl /\ n_p hr = n_p hl /\ f_nodes hr = f_nodes hl) by (destruct Hr as [-> _]; repeat split).
    assert (Hts : topo_ok hs) by (eapply topo_mesh; [exact M|apply Hokr]).
    pose proof (numbered_mesh _ _ M Hnr) as Hns.
    assert (Fs : g_faces hs = g_faces hl /\ f_glo hs = f_glo hl /\ n_p hs = n_p hl /\ f_nodes hs = f_nodes hl).
    { apply mesh_fields in M. decompose [and] M. destruct Fr as (A1 & A2 & A3 & A4). repeat split; congruence. }
    clear Fr M. destruct Fs as (A1 & A2 & A3 & A4).
    destruct (mpi_cover_main hs (conj Hts Zk) Lk Hns) as (ms' & Em & Lm & Pm & Hz).
    cbn [write_out] in Ew. rewrite Em in Ew. cbn [rbind] in Ew. injection Ew as ->.
    (* the tables *)
    assert (Pt : Permutation (map fst (concat tabs)) (concat (map mf_gloids ms))).
    { clear - Lx Lt Hc. revert txts tabs Lx Lt Hc. induction ms as [|m ms IH]; intros [|t txts] [|tab tabs] Lx Lt Hc; try discriminate; [constructor|].
      cbn [concat map]. rewrite map_app. apply Permutation_app.
      - apply (Hc 0 m t tab eq_refl eq_refl eq_refl).
      - apply (IH txts tabs); [cbn in Lx; lia|cbn in Lt; lia|]. intros i. apply (Hc (S i)). }
    rewrite A1, Ec in Pm. destruct (rows_of (concat tabs) (faces_in (zones_of evs)) (Permutation_trans Pt Pm)) as (rows & Lr & Pr).
    assert (Tl : forall r, In r (concat tabs) -> length (snd r) = length vars).
    { intros r Hr'. apply in_concat in Hr' as (tab & T1 & T2). apply In_nth_error in T1 as (i & T1).
      assert (Li : i < length ms) by (rewrite <- Lt; apply nth_error_Some; congruence).
      destruct (nth_error ms i) as [m|] eqn:E1; [|apply nth_error_None in E1; lia].
      destruct (nth_error txts i) as [t|] eqn:E2; [|apply nth_error_None in E2; lia].
      apply (Hc i m t tab E1 E2 T1). exact T2. }
    assert (Cv : covering (zones_of evs) txts vars rows).
    { split; [exact Nv|]. split; [exact Lr|]. split.
      - intros row Hrow. apply In_nth_error in Hrow as (i & Hi).
        assert (Li : i < length rows) by (apply nth_error_Some; congruence).
        apply (Tl (Z.of_nat i, row)). apply (Permutation_in _ (Permutation_sym Pr)). apply (nth_error_In _ i). apply nth_combine; [|exact Hi].
        rewrite nth_error_map, ZamProofs.nth_error_seq by lia. reflexivity.
      - exists tabs. split; [|rewrite Lr; exact Pr]. apply Forall2_by_nth; [lia|]. intros i t tab E1 E2.
        assert (Li : i < length ms) by (rewrite <- Lx; apply nth_error_Some; congruence).
        destruct (nth_error ms i) as [m|] eqn:E3; [|apply nth_error_None in E3; lia].
        apply (Hc i m t tab E3 E1 E2). }
    assert (Nt : ~ three_share (zones_of evs)).
    { intros K. pose proof (load_rejects_main text (new_grid h) evs Hf K) as Q. rewrite El in Q. discriminate Q. }
    split; [exact Nt|]. exists rows. split; [exact Cv|]. intros title out h1 h2 E2 Mg.
    assert (Zl : forall zr, In zr (zones_of evs) -> length (zr_data zr) = length (zr_conn zr)).
    { intros zr Hzr. destruct (file_form_ok _ _ _ Hf zr Hzr) as (Q & _). auto. }
    split.
    { destruct Mg as (_ & Mh & _). rewrite (faces_count _ _ Mh). clear - Lr. revert rows Lr. unfold faces_in.
      induction (zones_of evs) as [|z zs IH]; intros rows L; [reflexivity|]. cbn [with_rows map list_sum fold_right zr_conn] in *.
      f_equal. apply (IH (skipn (length (zr_conn z)) rows)). rewrite skipn_length. unfold list_sum in *. lia. }
    intros i m t tab j g ps vs Hi Htx Htb [Hg (ks & Hks & Hps)] Hin.
    assert (Li : i < length (g_zones hs)) by (rewrite <- Lm; apply nth_error_Some; congruence).
    destruct (nth_error (g_zones hs) i) as [z|] eqn:Ez; [|apply nth_error_None in Ez; lia].
    destruct (Hz i z m Ez Hi) as (_ & _ & _ & _ & _ & Hco & Hgl & _ & Hfn & _).
    rewrite Hgl in Hg. rewrite nth_error_map in Hg. destruct (nth_error (z_faces hs z) j) as [f|] eqn:Ej; [|discriminate Hg].
    cbn [option_map] in Hg. injection Hg as Hg.
    pose proof (cry_nodes hs z m ks (f_nodes hs f) Hco (nth_f2 _ _ _ _ _ _ _ _ Hfn Ej Hks) ps Hps) as Eps.
    assert (Gf : In f (g_faces hl)).
    { rewrite <- A1. apply (proj1 (zo_faces _ Zk z f (nth_error_In _ _ Ez))). apply (nth_error_In _ _ Ej). }
    apply In_nth_error in Gf as (k & Gk).
    assert (Eg : g = Z.of_nat k) by (rewrite <- Hg, A2; apply (ld_num _ _ _ Ld); exact Gk).
    assert (Rk : nth_error rows k = Some vs).
    { assert (Q : In (g, vs) (concat tabs)) by (apply in_concat; exists tab; split; [apply (nth_error_In _ _ Htb)|exact Hin]).
      apply (Permutation_in _ Pr) in Q. rewrite <- Lr in Q. apply (proj1 (nth_combine_seq _ rows (g, vs))) in Q. cbn [fst snd] in Q.
      destruct Q as (k' & Q1 & Q2). rewrite Eg in Q2. apply Nat2Z.inj in Q2. rewrite Q2. exact Q1. }
    destruct (merged_face _ _ _ _ _ _ _ _ _ Lr Zl Mg (ld_zones _ _ _ Ld) Gk Rk) as (f2 & G2 & D2 & C2).
    exists f2. rewrite Eg, Nat2Z.id. split; [lia|]. split; [exact G2|]. split; [|exact D2].
    (* positions *)
    destruct (load_form_main _ _ _ _ E2) as (evs2 & F2 & _). destruct (load_result _ _ _ _ _ E2 F2) as [Ld2 _].
    assert (I2 : incl (f_nodes h2 f2) (g_nodes h2)).
    { destruct Mg as (_ & _ & [T2 _] & _). apply (t_face_nodes _ T2 f2). apply (nth_error_In _ _ G2). }
    assert (I1 : incl (f_nodes hl f) (g_nodes hl)).
    { destruct Hok as [T1 _]. apply (t_face_nodes _ T1 f). apply (nth_error_In _ _ Gk). }
    rewrite Eps, A3, A4.
    assert (In2 : forall n, In n (g_nodes h2) -> n_rc h2 n = rnd (n_p h2 n) /\ In (n_p h2 n) (firsts (all_pts (zones_of evs)))).
    { intros n Hnn. split; [apply (ld_rc _ _ _ Ld2); exact Hnn|]. destruct Mg as (_ & _ & _ & Q). apply Q. exact Hnn. }
    assert (In1 : forall n, In n (g_nodes hl) -> n_rc hl n = rnd (n_p hl n) /\ In (n_p hl n) (firsts (all_pts (zones_of evs)))).
    { intros n Hnn. split; [apply (ld_rc _ _ _ Ld); exact Hnn|]. rewrite <- (ld_pts _ _ _ Ld). apply in_map. exact Hnn. }
    clear - C2 I1 I2 In1 In2. revert C2 I1. generalize (f_nodes hl f). induction (f_nodes h2 f2) as [|a l IH]; intros [|b l'] C I1; try discriminate C; [reflexivity|].
    cbn [map] in *. injection C as C C'. f_equal.
    - destruct (In2 a (I2 a (or_introl eq_refl))) as [Ra Pa]. destruct (In1 b (I1 b (or_introl eq_refl))) as [Rb Pb].
      apply (NoDup_map_inj _ _ rnd (firsts (all_pts (zones_of evs)))); auto; [apply firsts_nodup|congruence].
    - apply IH; auto; intros x Hx; [apply I2; right; auto|apply I1; right; auto].
  Qed.

  Theorem cycle : forall text strat fixed rf h hs ms evs h0 vars txts tabs, faithful_numbers -> order_ok ->
    file_form [] (file_lines text) evs -> no_degenerate (zones_of evs) -> faces_in (zones_of evs) <> 0 ->
    split (Some text) (lit ".dat") strat fixed rf ToMpi h = (Ok (WMpi ms), hs) ->
    title_in evs <> None \/ plain_name (g_name h0) -> NoDup vars ->
    length txts = length ms -> length tabs = length ms ->
    (forall i m t tab, nth_error ms i = Some m -> nth_error txts i = Some t -> nth_error tabs i = Some tab -> computed vars m t tab) ->
    exists out h', merge_one text txts h0 = (Ok out, h') /\
      forall h1, exists h2, load true out h1 = (Ok tt, h2) /\ length (g_faces h2) = faces_in (zones_of evs) /\
        forall i m t tab j g ps vs, nth_error ms i = Some m -> nth_error txts i = Some t -> nth_error tabs i = Some tab ->
          cry_face m j g ps -> In (g, vs) tab ->
          exists f, (0 <= g)%Z /\ nth_error (g_faces h2) (Z.to_nat g) = Some f /\ map (n_p h2) (f_nodes h2 f) = ps /\
            f_data h2 f = dict_of str_dec (combine vars vs).
  Proof.
    intros text strat fixed rf h hs ms evs h0 vars txts tabs Hn Ho Hf Nd Nf Es Ht Nv Lx Lt Hc.
    destruct (cycle_core _ _ _ _ _ _ _ _ vars txts tabs Ho Hf Nd Es Nv Lx Lt Hc) as (Nt & rows & Cv & Q).
    destruct (load_accepts_main true text h0 evs Hf Nd Nt (or_introl eq_refl)) as (hl0 & E0).
    destruct (loaded_names _ _ _ _ _ E0 Hf) as (_ & _ & Hp).
    destruct (merge_one_main text txts vars rows h0 hl0 evs Hn E0 Hf Nd Nf (Hp Ht) Cv) as (out & h' & E1 & _ & H2).
    exists out, h'. split; [exact E1|]. intros h1. destruct (H2 h1) as (h2 & E2 & Mg). exists h2. split; [exact E2|]. exact (Q _ _ _ _ E2 Mg).
  Qed.

  Lemma cry_nodes_of : forall h z m ks ns, mf_coords m = map (fun c => map (fun n => coord c (n_p h n)) (z_nodes h z)) [0; 1; 2] ->
    positions (z_nodes h z) ns ks -> Forall2 (cry_node m) ks (map (n_p h) ns).
  Proof.
    intros h z m ks ns Hc H. induction H as [|n k ns ks [H0 H1] H IH]; [constructor|]. cbn [map]. constructor; [|exact IH].
    cbn [map] in Hc. do 3 eexists. split; [exact Hc|]. split; [exact H0|].
    destruct (n_p h n) as [[a b] c] eqn:E.
    split; [rewrite (map_nth_error (fun n => coord 0 (n_p h n)) _ _ H1), E; reflexivity|].
    split; [rewrite (map_nth_error (fun n => coord 1 (n_p h n)) _ _ H1), E; reflexivity|].
    rewrite (map_nth_error (fun n => coord 2 (n_p h n)) _ _ H1), E; reflexivity.
  Qed.

  (** Every face of the grid is in one of the files for the solver, at one place only. *)
  Theorem cycle_every : forall text strat fixed rf h hs ms evs, order_ok ->
    file_form [] (file_lines text) evs -> no_degenerate (zones_of evs) ->
    split (Some text) (lit ".dat") strat fixed rf ToMpi h = (Ok (WMpi ms), hs) ->
    NoDup (concat (map mf_gloids ms)) /\
    forall k, k < faces_in (zones_of evs) -> exists i m j ps, nth_error ms i = Some m /\ cry_face m j (Z.of_nat k) ps /\ length ps = 3.
  Proof.
    intros text strat fixed rf h hs ms evs Ho Hf Nd Es.
    apply split_inv in Es as (_ & Es & Ew). apply split_decompose_inv in Es as (hl & hr & st & El & _ & Hr & _ & Ed).
    destruct (loaded_good _ _ _ _ El Hf Nd) as (Hok & Hl & Hnb & Hm).
    destruct (load_result _ _ _ _ _ El Hf) as [Ld _]. pose proof (faces_count _ _ (ld_zones _ _ _ Ld)) as Ec.
    pose proof (completed_ok _ _ _ Hr Hok) as Hokr. pose proof (decompose_by_decomposed _ _ _ _ Hokr Ho Ed) as (M & _ & Zk & Lk & _).
    assert (Hnr : numbered hr) by (destruct Hr as [-> _]; exact Hnb).
    assert (Fr : g_faces hr = g_faces hl) by (destruct Hr as [-> _]; reflexivity).
    assert (Hts : topo_ok hs) by (eapply topo_mesh; [exact M|apply Hokr]).
    pose proof (numbered_mesh _ _ M Hnr) as Hns.
    assert (A1 : g_faces hs = g_faces hl) by (apply mesh_fields in M; decompose [and] M; congruence).
    clear Fr M.
    destruct (mpi_cover_main hs (conj Hts Zk) Lk Hns) as (ms' & Em & Lm & Pm & Hz).
    cbn [write_out] in Ew. rewrite Em in Ew. cbn [rbind] in Ew. injection Ew as ->. rewrite A1, Ec in Pm. split.
    { apply (Permutation_NoDup (Permutation_sym Pm)). apply FinFun.Injective_map_NoDup; [intros a b; apply Nat2Z.inj|apply seq_NoDup]. }
    intros k Hk. assert (Q : In (Z.of_nat k) (concat (map mf_gloids ms))).
    { apply (Permutation_in _ (Permutation_sym Pm)). apply in_map. apply in_seq. lia. }
    apply in_concat in Q as (l & Q1 & Q2). apply in_map_iff in Q1 as (m & <- & Q1). apply In_nth_error in Q1 as (i & Hi). apply In_nth_error in Q2 as (j & Hj).
    assert (Li : i < length (g_zones hs)) by (rewrite <- Lm; apply nth_error_Some; congruence).
    destruct (nth_error (g_zones hs) i) as [z|] eqn:Ez; [|apply nth_error_None in Ez; lia].
    destruct (Hz i z m Ez Hi) as (_ & _ & _ & _ & _ & Hco & Hgl & _ & Hfn & _).
    pose proof Hj as Hg. rewrite Hgl, nth_error_map in Hg. destruct (nth_error (z_faces hs z) j) as [f|] eqn:Ej; [|discriminate Hg]. clear Hg.
    assert (Hk' : exists ks, nth_error (mf_fn m) j = Some ks /\ positions (z_nodes hs z) (f_nodes hs f) ks).
    { clear - Hfn Ej. unfold position_rows in Hfn. revert j Ej. induction Hfn as [|a b la lb Hab Hfn IH]; intros j Ej; [destruct j; discriminate Ej|].
      destruct j as [|j]; [|apply (IH j Ej)]. cbn in Ej. injection Ej as <-. exists b. split; [reflexivity|exact Hab]. }
    destruct Hk' as (ks & K1 & K2). exists i, m, j, (map (n_p hs) (f_nodes hs f)). split; [exact Hi|]. split.
    - split; [exact Hj|]. exists ks. split; [exact K1|]. apply (cry_nodes_of hs z); auto.
    - rewrite map_length. apply (t_face_nodes _ Hts f). apply (proj1 (zo_faces _ Zk z f (nth_error_In _ _ Ez))). apply (nth_error_In _ _ Ej).
  Qed.
End CycleProofs.
