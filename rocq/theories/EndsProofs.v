(** Proofs of the theorems about line ends. *)

From Coq Require Import ZArith Reals Ascii String Bool List.
From Verif Require Import Py PyLemmas Heap GridModel Mpi GridIO Utils Driver Stamps Convert LazuritMain Ansys AnsysMain Import Programs Remesh EndsSpec.
Import ListNotations.
Open Scope list_scope.
Open Scope nat_scope.

Lemma ends_universal : forall t u, other_ends t u -> universal_nl t = t /\ universal_nl u = t.
Proof.
  induction 1 as [|c t u C N H [I J]|t u H [I J]|t u H [I J]|t u H [I J] N].
  - split; reflexivity.
  - cbn [universal_nl]. destruct (Ascii.eqb_spec c cr) as [E|_]; [contradiction|]. rewrite I, J. split; reflexivity.
  - split; [change (universal_nl (nl :: t)) with (nl :: universal_nl t); rewrite I; reflexivity
           |change (universal_nl (nl :: u)) with (nl :: universal_nl u); rewrite J; reflexivity].
  - split; [change (universal_nl (nl :: t)) with (nl :: universal_nl t); rewrite I; reflexivity
           |change (universal_nl (cr :: nl :: u)) with (nl :: universal_nl u); rewrite J; reflexivity].
  - split; [change (universal_nl (nl :: t)) with (nl :: universal_nl t); rewrite I; reflexivity|].
    destruct u as [|d u]; [cbn in J; rewrite <- J; reflexivity|].
    change (universal_nl (cr :: d :: u)) with (if Ascii.eqb d nl then nl :: universal_nl u else nl :: universal_nl (d :: u)).
    destruct (Ascii.eqb_spec d nl) as [->|_]; [cbn in N; congruence|]. rewrite J. reflexivity.
Qed.

Lemma ends_lines : forall t u, other_ends t u -> file_lines u = file_lines t.
Proof. intros t u H. unfold file_lines. destruct (ends_universal t u H) as [-> ->]. reflexivity. Qed.

Lemma with_ends_ok : forall e t, (forall c, In c t -> c <> cr) -> e = [nl] \/ e = [cr; nl] \/ e = [cr] -> other_ends t (with_ends e t).
Proof.
  intros e t H He. induction t as [|c t IH]; [constructor|].
  assert (I : other_ends t (with_ends e t)) by (apply IH; intros x Hx; apply H; right; exact Hx).
  change (with_ends e (c :: t)) with ((if Ascii.eqb c nl then e else [c]) ++ with_ends e t).
  destruct (Ascii.eqb_spec c nl) as [->|N].
  - destruct He as [->|[->| ->]]; cbn [app].
    + apply oe_lf; exact I.
    + apply oe_crlf; exact I.
    + apply oe_cr; [exact I|]. destruct t as [|d t]; [discriminate|].
      unfold with_ends; cbn [flat_map]. destruct (Ascii.eqb_spec d nl) as [_|M]; cbn [app hd_error]; [intros K; discriminate K|intros K; injection K as K; contradiction].
  - cbn [app]. apply oe_char; [apply H; left; reflexivity|exact N|exact I].
Qed.

Lemma same_names : forall d d', same_dir d d' -> map fst d' = map fst d.
Proof. induction 1 as [|a b d d' [E _] H IH]; [reflexivity|]. cbn. rewrite E, IH. reflexivity. Qed.

Lemma same_open : forall d d' n, same_dir d d' ->
  match dget str_dec d n, dget str_dec d' n with
  | Some t, Some u => other_ends t u | None, None => True | _, _ => False end.
Proof.
  intros d d' n. induction 1 as [|[a s] [b s'] d d' [E K] H IH]; [exact I|].
  cbn in E, K. subst b. cbn [dget]. destruct (str_dec n a); [exact K|exact IH].
Qed.

Section Ends.
  Context {F : FloatOps}.

  Theorem load_ends : forall t u m h, other_ends t u -> load m u h = load m t h.
  Proof. intros t u m h H. unfold load. rewrite (ends_lines t u H). reflexivity. Qed.

  Lemma bind_ext : forall {A B} (a a' : M A) (f f' : A -> M B), (forall h, a h = a' h) -> (forall x h, f x h = f' x h) ->
    forall h, bind a f h = bind a' f' h.
  Proof. intros A B a a' f f' Ha Hf h. unfold bind. rewrite Ha. destruct (a' h) as [[x|e] h']; [apply Hf|reflexivity]. Qed.

  Lemma calc_ends : forall t u h, other_ends t u -> load_faces_calc_data u h = load_faces_calc_data t h.
  Proof. intros t u h H. unfold load_faces_calc_data. rewrite (ends_lines t u H). reflexivity. Qed.

  Lemma each_ends : forall ts us, Forall2 other_ends ts us -> forall h, for_each us load_faces_calc_data h = for_each ts load_faces_calc_data h.
  Proof.
    induction 1 as [|t u ts us H K IH]; intros h; [reflexivity|]. cbn [for_each].
    apply bind_ext; [intros k; apply calc_ends; exact H|]. intros x k. apply IH.
  Qed.

  Theorem merge_one_ends : forall g g' ts us h, other_ends g g' -> Forall2 other_ends ts us -> merge_one g' us h = merge_one g ts h.
  Proof.
    intros g g' ts us h Hg H. unfold merge_one. apply bind_ext; [intros k; apply load_ends; exact Hg|]. intros _ k.
    apply bind_ext; [intros j; apply each_ends; exact H|]. reflexivity.
  Qed.

  Lemma rmap_open : forall d d' fs, same_dir d d' ->
    match rmap (open_in d) fs, rmap (open_in d') fs with
    | Ok ts, Ok us => Forall2 other_ends ts us | Raise e, Raise e' => e = e' | _, _ => False end.
  Proof.
    intros d d' fs H. induction fs as [|n fs IH]; [constructor|]. cbn [rmap].
    pose proof (same_open d d' n H) as O. assert (Ed : forall x, open_in x n = match dget str_dec x n with Some t => Ok t | None => Raise EException end) by reflexivity.
    rewrite !Ed. destruct (dget str_dec d n) as [t|], (dget str_dec d' n) as [u|]; try contradiction; [|reflexivity].
    cbn [rbind]. destruct (rmap (open_in d) fs), (rmap (open_in d') fs); cbn [rbind]; try contradiction; [constructor; assumption|exact IH].
  Qed.

  Theorem merge_ends : forall nm g g' d d', other_ends g g' -> same_dir d d' -> forall h, merge nm g' d' h = merge nm g d h.
  Proof.
    intros nm g g' d d' Hg H. unfold merge. rewrite (same_names d d' H). apply bind_ext; [reflexivity|]. intros ms.
    apply bind_ext; [reflexivity|]. intros _. generalize (group_txt_files_by_timestamps ms) as gs. intros gs.
    induction gs as [|[tm fs] gs IH]; intros h; [reflexivity|]. cbn [merge_loop].
    pose proof (rmap_open d d' fs H) as O. destruct (rmap (open_in d) fs) as [ts|e], (rmap (open_in d') fs) as [us|e']; try contradiction; [|rewrite O; reflexivity].
    change (bind (merge_one g' us) (fun out => bind (merge_loop nm g' d' gs) (fun rest => ret ((nm ++ lit "_r_" ++ tm ++ lit ".dat", out) :: rest))) h =
            bind (merge_one g ts) (fun out => bind (merge_loop nm g d gs) (fun rest => ret ((nm ++ lit "_r_" ++ tm ++ lit ".dat", out) :: rest))) h). revert h.
    apply bind_ext; [intros k; apply merge_one_ends; assumption|]. intros out. apply bind_ext; [exact IH|reflexivity].
  Qed.

  Theorem merge_run_ends : forall stem g g' d d', other_ends g g' -> same_dir d d' -> forall h, merge_run stem (Some g') d' h = merge_run stem (Some g) d h.
  Proof. intros stem g g' d d' Hg H h. unfold merge_run. destruct (get_filename_and_timestamp_pair stem) as [nm ts]. apply merge_ends; assumption. Qed.

  Lemma decompose_ends : forall g g' strat fixed rf h, other_ends g g' -> split_decompose g' strat fixed rf h = split_decompose g strat fixed rf h.
  Proof. intros g g' strat fixed rf h H. unfold split_decompose. apply bind_ext; [reflexivity|]. intros _. apply bind_ext; [intros k; apply load_ends; exact H|reflexivity]. Qed.

  Theorem split_ends : forall g g' sf strat fixed rf t h, other_ends g g' -> split (Some g') sf strat fixed rf t h = split (Some g) sf strat fixed rf t h.
  Proof.
    intros g g' sf strat fixed rf t h H. unfold split. destruct (str_eqb sf (lit ".dat")); [|reflexivity].
    apply bind_ext; [intros k; apply decompose_ends; exact H|reflexivity].
  Qed.

  Theorem split_run_ends : forall stem g g' sf strat fixed rf h, other_ends g g' -> split_run stem (Some g') sf strat fixed rf h = split_run stem (Some g) sf strat fixed rf h.
  Proof.
    intros stem g g' sf strat fixed rf h H. unfold split_run. destruct (get_filename_and_timestamp_pair stem) as [nm ts]. destruct (str_eqb sf (lit ".dat")); [|reflexivity].
    apply bind_ext; [intros k; apply decompose_ends; exact H|reflexivity].
  Qed.

  Theorem remesh_ends : forall real near fx o g g' h, other_ends g g' -> remesh_file real near fx o g' h = remesh_file real near fx o g h.
  Proof. intros real near fx o g g' h H. unfold remesh_file. apply bind_ext; [reflexivity|]. intros _. apply bind_ext; [intros k; apply load_ends; exact H|reflexivity]. Qed.

  Theorem import_ends : forall t u, other_ends t u -> import_grid u = import_grid t.
  Proof. intros t u H. unfold import_grid. rewrite (ends_lines t u H). reflexivity. Qed.

  Theorem lazurit_ends : forall neg d d', same_dir d d' -> forall h, lazurit_to_crystal neg d' h = lazurit_to_crystal neg d h.
  Proof.
    intros neg d d' H h. unfold lazurit_to_crystal. rewrite (same_names d d' H). revert h. apply bind_ext; [reflexivity|]. intros ps.
    replace (pairs_text neg d' ps) with (pairs_text neg d ps); [reflexivity|]. unfold pairs_text. f_equal.
    induction ps as [|[a b] ps IH]; [reflexivity|]. cbn [rmap fst snd]. rewrite IH. f_equal.
    unfold open_text. pose proof (same_open d d' a H) as Oa. pose proof (same_open d d' b H) as Ob.
    destruct (dget str_dec d a) as [t|], (dget str_dec d' a) as [u|]; try contradiction; [|reflexivity].
    destruct (dget str_dec d b) as [t'|], (dget str_dec d' b) as [u'|]; try contradiction; [|reflexivity].
    cbn [rbind]. f_equal. unfold pair_zone, read_sizes. rewrite (ends_lines t u Oa), (ends_lines t' u' Ob). reflexivity.
  Qed.

  Theorem ansys_ends : forall fl sfmt fm zones t v cp rv f d a f' d' a' h, other_ends f f' -> other_ends d d' -> other_ends a a' ->
    ansys_to_crystal fl sfmt fm zones t v cp rv f' d' a' h = ansys_to_crystal fl sfmt fm zones t v cp rv f d a h.
  Proof.
    intros fl sfmt fm zones t v cp rv f d a f' d' a' h Hf Hd Ha. unfold ansys_to_crystal, exported_text.
    unfold stage at 1 2 3 8 9 10. rewrite (ends_lines f f' Hf), (ends_lines d d' Hd), (ends_lines a a' Ha). reflexivity.
  Qed.
End Ends.
