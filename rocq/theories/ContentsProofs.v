(** Proofs of the theorems about grid files with the same contents. *)

From Coq Require Import ZArith Ascii String Bool List Lia.
From Verif Require Import Py PyLemmas TextLemmas Heap HeapLemmas GridModel Mpi GridIO FileSpec LoadParse Utils Driver Stamps Programs Remesh ContentsSpec EndsProofs AnsysMainText.
Import ListNotations.
Open Scope list_scope.
Open Scope nat_scope.

Lemma take_app : forall (a b : list str), take_lines (length a) (a ++ b) = (a, b).
Proof. induction a as [|x a IH]; intros b; [reflexivity|]. cbn [length take_lines app tl hd]. rewrite IH. reflexivity. Qed.
Lemma f2_len : forall A B (R : A -> B -> Prop) l l', Forall2 R l l' -> length l = length l'.
Proof. intros A B R l l' H. induction H; cbn; auto. Qed.

Section Contents.
  Context {F : FloatOps}.

  Theorem contents_load : forall t1 t2 evs, file_form [] (file_lines t1) evs -> file_form [] (file_lines t2) evs ->
    forall m h, load m t1 h = load m t2 h.
  Proof.
    intros t1 t2 evs H1 H2 m h. unfold load. cbv zeta. revert h. apply EndsProofs.bind_ext; [reflexivity|]. intros _.
    apply EndsProofs.bind_ext; [|reflexivity]. intros h.
    rewrite (load_loop_build [] _ evs H1), (load_loop_build [] _ evs H2); [reflexivity| |]; apply Nat.lt_succ_diag_r.
  Qed.

  Lemma number_same : forall l l' vs, same_floats l l' -> number_line l vs -> number_line l' vs.
  Proof.
    unfold same_floats, number_line. intros l l'. generalize (split_ws l) (split_ws l'). intros a b vs H. revert vs.
    induction H as [|s s' a b E H IH]; intros vs K; [exact K|]. destruct vs as [|v vs]; [inversion K|].
    assert (K1 : prs s = Some v) by (inversion K; assumption). assert (K2 : Forall2 (fun s v => prs s = Some v) a vs) by (inversion K; assumption).
    constructor; [rewrite <- E; exact K1|apply IH; exact K2].
  Qed.

  Lemma corner_same : forall n l l' t, same_ints l l' -> corner_line n l t -> corner_line n l' t.
  Proof.
    unfold same_ints. intros n l l' [[a b] c] H (sa & sb & sc & ka & kb & kc & W & A & B & C & I).
    rewrite W in H. remember (split_ws l') as w eqn:E. symmetry in E.
    destruct w as [|x [|y [|z [|u w]]]]; try (apply f2_len in H; cbn in H; lia).
    assert (X : py_int sa = py_int x) by (inversion H; assumption).
    assert (H2 : Forall2 (fun s s' => py_int s = py_int s') [sb; sc] [y; z]) by (inversion H; assumption).
    assert (Y : py_int sb = py_int y) by (inversion H2; assumption).
    assert (H3 : Forall2 (fun s s' => py_int s = py_int s') [sc] [z]) by (inversion H2; assumption).
    assert (Z : py_int sc = py_int z) by (inversion H3; assumption).
    exists x, y, z, ka, kb, kc. rewrite <- X, <- Y, <- Z. split; [exact E|]. repeat (split; [assumption|]). exact I.
  Qed.

  Lemma f2_same : forall A (R : str -> str -> Prop) (P : str -> A -> Prop), (forall l l' x, R l l' -> P l x -> P l' x) ->
    forall ls ls', Forall2 R ls ls' -> forall xs, Forall2 P ls xs -> Forall2 P ls' xs.
  Proof.
    intros A R P HP ls ls' H. induction H as [|l l' ls ls' E H IH]; intros xs K; [exact K|].
    destruct xs as [|x xs]; [inversion K|]. assert (K1 : P l x) by (inversion K; assumption). assert (K2 : Forall2 P ls xs) by (inversion K; assumption).
    constructor; [exact (HP _ _ _ E K1)|apply IH; exact K2].
  Qed.

  Lemma block_same : forall vars l1 l2 l3 l4 l5 nums nums' conns conns' zr rest,
    zone_block vars (l1 :: l2 :: l3 :: l4 :: l5 :: nums ++ conns) zr [] ->
    length nums = 3 + length (zr_vars zr) -> length conns = length (zr_conn zr) -> Forall2 same_floats nums nums' -> Forall2 same_ints conns conns' ->
    zone_block vars (l1 :: l2 :: l3 :: l4 :: l5 :: nums' ++ conns' ++ rest) zr rest.
  Proof.
    intros vars l1 l2 l3 l4 l5 nums nums' conns conns' zr rest (a1 & a2 & a3 & a4 & a5 & body & n & m & lx & ly & lz & cx & cy & cz & body2 &
      drows & d & body3 & crows & E & C1 & C2 & X3 & X4 & X5 & Ev & T1 & Nx & Ny & Nz & Lp & Hp & T2 & Hd & Ld & Hr & T3 & Hc) Ln Lc Hn Hcc.
    injection E as <- <- <- <- <- <-.
    destruct nums as [|n1 [|n2 [|n3 nums]]]; try (cbn in Ln; lia).
    change (take_lines 3 ((n1 :: n2 :: n3 :: nums) ++ conns)) with (take_lines (length [n1; n2; n3]) ([n1; n2; n3] ++ (nums ++ conns))) in T1.
    rewrite take_app in T1. injection T1 as <- <- <- <-.
    assert (Ln' : length nums = length (zr_vars zr)) by (cbn in Ln; lia).
    rewrite <- Ln', take_app in T2. injection T2 as <- <-.
    assert (Lm : length conns = Z.to_nat m).
    { apply take_lines_length in T3 as [T3 _]. apply f2_len in Hc. lia. }
    rewrite <- Lm in T3. assert (T4 : take_lines (length conns) (conns ++ []) = (conns, [])) by apply take_app. rewrite app_nil_r in T4. rewrite T4 in T3. injection T3 as <-.
    destruct nums' as [|n1' [|n2' [|n3' nums']]]; try (apply f2_len in Hn; cbn in Hn; lia).
    assert (S1 : same_floats n1 n1') by (inversion Hn; assumption).
    assert (H2 : Forall2 same_floats (n2 :: n3 :: nums) (n2' :: n3' :: nums')) by (inversion Hn; assumption).
    assert (S2 : same_floats n2 n2') by (inversion H2; assumption).
    assert (H3 : Forall2 same_floats (n3 :: nums) (n3' :: nums')) by (inversion H2; assumption).
    assert (S3 : same_floats n3 n3') by (inversion H3; assumption).
    assert (H4 : Forall2 same_floats nums nums') by (inversion H3; assumption).
    exists l1, l2, l3, l4, l5, ((n1' :: n2' :: n3' :: nums') ++ conns' ++ rest), n, m, n1', n2', n3', cx, cy, cz, (nums' ++ conns' ++ rest), nums', d, (conns' ++ rest), conns'.
    split; [reflexivity|]. do 6 (split; [assumption|]).
    split; [exact (take_app [n1'; n2'; n3'] (nums' ++ conns' ++ rest))|].
    split; [exact (number_same _ _ _ S1 Nx)|]. split; [exact (number_same _ _ _ S2 Ny)|]. split; [exact (number_same _ _ _ S3 Nz)|].
    split; [assumption|]. split; [assumption|].
    split; [rewrite <- Ln', (f2_len _ _ _ _ _ H4); apply take_app|].
    split; [exact (f2_same _ _ _ number_same _ _ H4 _ Hd)|]. split; [assumption|]. split; [assumption|].
    split; [rewrite <- Lm, (f2_len _ _ _ _ _ Hcc); apply take_app|].
    exact (f2_same _ _ _ (corner_same (length (zr_pts zr))) _ _ Hcc _ Hc).
  Qed.

  Lemma floats_refl : forall ls, Forall2 same_floats ls ls.
  Proof. assert (R : forall w, Forall2 (fun s s' => prs s = prs s') w w) by (induction w; constructor; auto). induction ls; constructor; [apply R|assumption]. Qed.
  Lemma ints_refl : forall ls, Forall2 same_ints ls ls.
  Proof. assert (R : forall w, Forall2 (fun s s' => py_int s = py_int s') w w) by (induction w; constructor; auto). induction ls; constructor; [apply R|assumption]. Qed.

  Lemma rewritten_refl : forall ps, rewritten ps ps.
  Proof. induction ps as [|[l|l l1 l2 l3 l4 l5 ns cs] ps IH]; [constructor|constructor; exact IH|constructor; [apply floats_refl|apply ints_refl|exact IH]]. Qed.

  Lemma rewritten_form : forall ps ps', rewritten ps ps' -> forall vars evs, pieces vars ps evs -> file_form vars (flat_map lines_of_piece ps') evs.
  Proof.
    induction 1 as [|l ps ps' H IH|l ps ps' C H IH|l l1 l2 l3 l4 l5 nums nums' conns conns' ps ps' Hn Hc H IH]; intros vars evs P.
    - inversion P; constructor.
    - change (flat_map lines_of_piece (PLine l :: ps')) with (l :: flat_map lines_of_piece ps'). inversion P; subst.
      + apply ff_comment; [assumption|apply IH; assumption].
      + apply ff_title; [assumption|apply IH; assumption].
      + eapply ff_vars; [eassumption|apply IH; assumption].
    - apply ff_comment; [exact C|apply IH; exact P].
    - inversion P; subst. cbn [flat_map lines_of_piece app]. rewrite <- app_assoc. eapply ff_zone; [eassumption| |apply IH; eassumption].
      eapply block_same; eassumption.
  Qed.

  Theorem rewritten_load : forall t t' ps ps' evs, file_lines t = flat_map lines_of_piece ps -> file_lines t' = flat_map lines_of_piece ps' ->
    pieces [] ps evs -> rewritten ps ps' -> forall m h, load m t' h = load m t h.
  Proof.
    intros t t' ps ps' evs E E' P R m h. apply (contents_load t' t evs).
    - rewrite E'. exact (rewritten_form ps ps' R [] evs P).
    - rewrite E. exact (rewritten_form ps ps (rewritten_refl ps) [] evs P).
  Qed.

  Lemma concat_lines : forall s, List.concat (lines s) = s.
  Proof.
    induction s as [|c s IH]; [reflexivity|]. cbn [lines]. destruct (Ascii.eqb_spec c nl) as [->|_]; [cbn; rewrite IH; reflexivity|].
    destruct (lines s) as [|l ls]; cbn in *; rewrite <- IH; reflexivity.
  Qed.
  Lemma ok_chop : forall init c0, ok_lines (init ++ [c0 ++ [nl]]) -> c0 <> [] -> ok_lines (init ++ [c0]).
  Proof.
    induction init as [|l init IH]; intros c0 H N.
    - cbn [app] in *. apply okl_last. split; [exact N|]. inversion H as [|l Hl E|l r Hl Hr E].
      + exfalso. assert (I : In nl (c0 ++ [nl])) by (apply in_or_app; right; left; reflexivity). destruct Hl as [_ Hl]. destruct (Hl _ I) as [A _]. apply A. reflexivity.
      + destruct Hl as (s & E2 & Hs). apply app_inj_tail in E2 as [-> _]. exact Hs.
    - cbn [app] in *. inversion H as [|l' Hl E|l' r Hl Hr E].
      + destruct init; discriminate.
      + apply okl_cons; [assumption|]. apply IH; assumption.
  Qed.
  Lemma file_chop : forall t init c0, (forall c, In c t -> c <> cr) -> file_lines (t ++ [nl]) = init ++ [c0 ++ [nl]] -> c0 <> [] -> file_lines t = init ++ [c0].
  Proof.
    intros t init c0 Ht E N.
    assert (O : ok_lines (init ++ [c0])) by (apply ok_chop; [rewrite <- E; apply file_lines_form|exact N]).
    assert (T : t = List.concat (init ++ [c0])).
    { unfold file_lines in E. rewrite universal_nl_id in E by (intros c I; apply in_app_iff in I as [I|[<-|[]]]; [apply Ht; exact I|discriminate]).
      apply (f_equal (@List.concat ascii)) in E. rewrite concat_lines, !concat_app in E. cbn [List.concat] in E. rewrite app_nil_r, app_assoc in E.
      apply app_inj_tail in E as [-> _]. rewrite concat_app. cbn [List.concat]. rewrite app_nil_r. reflexivity. }
    rewrite T at 1. apply read_again. exact O.
  Qed.
  Lemma split_ws_nl : forall s, split_ws (s ++ [nl]) = split_ws s.
  Proof.
    assert (H : forall s cur, split_ws_aux cur (s ++ [nl]) = split_ws_aux cur s).
    { induction s as [|c s IH]; intros cur; cbn [app split_ws_aux].
      - change (is_space nl) with true. destruct cur; reflexivity.
      - destruct (is_space c); [destruct cur; [apply IH|rewrite IH; reflexivity]|apply IH]. }
    intros s. apply H.
  Qed.
  Lemma rewritten_app : forall ps qs qs', rewritten qs qs' -> rewritten (ps ++ qs) (ps ++ qs').
  Proof. induction ps as [|[l|l l1 l2 l3 l4 l5 ns cs] ps IH]; intros qs qs' H; cbn [app]; [exact H|constructor; apply IH; exact H|constructor; [apply floats_refl|apply ints_refl|apply IH; exact H]]. Qed.

  Theorem last_line_end : forall t ps l l1 l2 l3 l4 l5 nums conns c0 evs, (forall c, In c t -> c <> cr) ->
    file_lines (t ++ [nl]) = flat_map lines_of_piece (ps ++ [PZone l l1 l2 l3 l4 l5 nums (conns ++ [c0 ++ [nl]])]) -> c0 <> [] ->
    pieces [] (ps ++ [PZone l l1 l2 l3 l4 l5 nums (conns ++ [c0 ++ [nl]])]) evs ->
    forall m h, load m t h = load m (t ++ [nl]) h.
  Proof.
    intros t ps l l1 l2 l3 l4 l5 nums conns c0 evs Ht E N P m h.
    apply (rewritten_load (t ++ [nl]) t _ (ps ++ [PZone l l1 l2 l3 l4 l5 nums (conns ++ [c0])]) evs E); [|exact P|].
    - assert (A : forall x, flat_map lines_of_piece (ps ++ [PZone l l1 l2 l3 l4 l5 nums (conns ++ [x])]) =
        (flat_map lines_of_piece ps ++ l :: l1 :: l2 :: l3 :: l4 :: l5 :: nums ++ conns) ++ [x]).
      { intros x. rewrite flat_map_app. cbn [flat_map lines_of_piece]. rewrite app_nil_r, <- app_assoc. cbn [app]. rewrite <- app_assoc. reflexivity. }
      rewrite A in E |- *. apply file_chop; assumption.
    - apply rewritten_app. constructor; [apply floats_refl| |constructor]. apply Forall2_app; [apply ints_refl|]. constructor; [|constructor].
      unfold same_ints. rewrite split_ws_nl. generalize (split_ws c0). induction l0; constructor; auto.
  Qed.

  (** Programs look at the grid file only by load. *)
  Definition same_load (t t' : str) : Prop := forall m h, load m t' h = load m t h.

  Theorem split_same : forall t t', same_load t t' -> forall stem sf strat fixed rf h,
    split_run stem (Some t') sf strat fixed rf h = split_run stem (Some t) sf strat fixed rf h.
  Proof.
    intros t t' H stem sf strat fixed rf h. unfold split_run. destruct (get_filename_and_timestamp_pair stem) as [nm ts]. destruct (str_eqb sf (lit ".dat")); [|reflexivity].
    revert h. apply EndsProofs.bind_ext; [|reflexivity]. intros h. unfold split_decompose. revert h. apply EndsProofs.bind_ext; [reflexivity|]. intros _. apply EndsProofs.bind_ext; [apply H|reflexivity].
  Qed.

  Theorem merge_same : forall t t', same_load t t' -> forall stem d h, merge_run stem (Some t') d h = merge_run stem (Some t) d h.
  Proof.
    intros t t' H stem d h. unfold merge_run. destruct (get_filename_and_timestamp_pair stem) as [nm ts]. unfold merge. revert h.
    apply EndsProofs.bind_ext; [reflexivity|]. intros ms. apply EndsProofs.bind_ext; [reflexivity|]. intros _. generalize (group_txt_files_by_timestamps ms) as gs.
    induction gs as [|[tm fs] gs IH]; intros h; [reflexivity|]. cbn [merge_loop]. revert h. apply EndsProofs.bind_ext; [reflexivity|]. intros txts.
    apply EndsProofs.bind_ext; [intros h; unfold merge_one; revert h; apply EndsProofs.bind_ext; [apply H|reflexivity]|]. intros out. apply EndsProofs.bind_ext; [exact IH|reflexivity].
  Qed.

  Theorem remesh_same : forall t t', same_load t t' -> forall real near fx o h, remesh_file real near fx o t' h = remesh_file real near fx o t h.
  Proof. intros t t' H real near fx o h. unfold remesh_file. revert h. apply EndsProofs.bind_ext; [reflexivity|]. intros _. apply EndsProofs.bind_ext; [apply H|reflexivity]. Qed.
End Contents.
