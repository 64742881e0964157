(** Proofs about utils.py. *)

From Coq Require Import ZArith NArith Ascii String Bool Lia List Permutation.
From Verif Require Import Py PyLemmas Utils UtilsSpec.
Import ListNotations.
Open Scope list_scope.

(* ------------------------------------------------------------------ *)
(** * flatten *)

Lemma flatten_elem_nest : forall A (l : list (nested A)), flatten_elem (Nest l) = flatten l.
Proof.
  intros A l. cbn [flatten_elem]. induction l as [|x l IH]; auto.
  cbn [flatten]. rewrite <- IH. auto.
Qed.

Lemma flatten_app : forall A (a b : list (nested A)), flatten (a ++ b) = flatten a ++ flatten b.
Proof.
  induction a as [|x a IH]; intros b; simpl; auto. rewrite IH, app_assoc; auto.
Qed.

Lemma flatten_map_leaf : forall A (l : list A), flatten (map Leaf l) = map Leaf l.
Proof. induction l as [|x l IH]; simpl; auto. rewrite IH; auto. Qed.

Lemma leaves_flatten : forall A,
  (forall (e : nested A) r, Leaves e r -> flatten_elem e = map Leaf r).
Proof.
  intros A e r H.
  induction H using Leaves_mut with
    (P0 := fun l r (_ : LeavesL l r) => flatten l = map Leaf r).
  - reflexivity.
  - rewrite flatten_elem_nest. auto.
  - reflexivity.
  - cbn [flatten]. rewrite IHLeaves, IHLeaves0, map_app. reflexivity.
Qed.

Lemma leavesL_flatten : forall A (l : list (nested A)) r,
  LeavesL l r -> flatten l = map Leaf r.
Proof.
  intros A l r H. rewrite <- flatten_elem_nest. apply leaves_flatten. constructor; auto.
Qed.

Fixpoint nested_ind2 {A} (P : nested A -> Prop)
  (HL : forall a, P (Leaf a)) (HN : forall l, Forall P l -> P (Nest l)) (e : nested A) : P e :=
  match e with
  | Leaf a => HL a
  | Nest l => HN l ((fix go (l : list (nested A)) : Forall P l :=
      match l with
      | [] => Forall_nil P
      | x :: r => Forall_cons x (nested_ind2 P HL HN x) (go r)
      end) l)
  end.

Lemma leaves_total : forall A (e : nested A), exists r, Leaves e r.
Proof.
  intros A. apply nested_ind2.
  - intros a. exists [a]. constructor.
  - intros l H. assert (exists r, LeavesL l r) as [r Hr].
    { induction H as [|x l [rx Hx] Hl [rl IH]].
      - exists []. constructor.
      - exists (rx ++ rl). constructor; auto. }
    exists r. constructor; auto.
Qed.

Lemma leavesL_total : forall A (l : list (nested A)), exists r, LeavesL l r.
Proof.
  intros A l. destruct (leaves_total A (Nest l)) as [r H]. inv H. eauto.
Qed.

Lemma flatten_correct : forall A (ar : list (nested A)),
  exists r, LeavesL ar r /\ flatten ar = map Leaf r /\ flatten (flatten ar) = flatten ar.
Proof.
  intros A ar. destruct (leavesL_total A ar) as [r Hr]. exists r.
  pose proof (leavesL_flatten A ar r Hr) as E. split; [auto|]. split; [auto|].
  rewrite E. apply flatten_map_leaf.
Qed.

(* ------------------------------------------------------------------ *)
(** * Timestamps *)

Lemma u12_spec : forall s, underscore_12_digits s = true <->
  exists t, s = "_"%char :: t /\ twelve_digits t.
Proof.
  intros [|c r]; simpl.
  - split; [discriminate| intros (t & H & _); discriminate].
  - unfold twelve_digits. split.
    + intros H. apply andb_prop in H as [H Hd]. apply andb_prop in H as [H1 H2].
      apply Ascii.eqb_eq in H1. apply Nat.eqb_eq in H2. subst. eauto.
    + intros (t & E & Hl & Hd). inv E. rewrite Hl, Hd. auto.
Qed.

Lemma ends_u12 : forall s, (13 <=? length s)%nat && underscore_12_digits (skipn (length s - 13) s) = true <->
  exists b t, s = b ++ lit "_" ++ t /\ twelve_digits t.
Proof.
  intros s. split.
  - intros H. apply andb_prop in H as [H1 H2]. apply u12_spec in H2 as (t & E & Ht).
    exists (firstn (length s - 13) s), t. split; auto.
    change (lit "_" ++ t) with ("_"%char :: t). rewrite <- E. symmetry. apply firstn_skipn.
  - intros (b & t & -> & Ht). destruct Ht as [Hl Hd].
    change (lit "_" ++ t) with ("_"%char :: t).
    rewrite app_length. cbn [length]. rewrite Hl.
    replace (length b + 13 - 13)%nat with (length b) by lia.
    rewrite skipn_app_exact. apply andb_true_intro. split.
    + apply Nat.leb_le; lia.
    + apply u12_spec. exists t. split; auto. split; auto.
Qed.

Lemma has_ts_spec : forall s, has_filename_timestamp s = true <->
  exists b t, twelve_digits t /\ (s = b ++ lit "_" ++ t \/ s = b ++ lit "_" ++ t ++ [nl]).
Proof.
  intros s. unfold has_filename_timestamp. rewrite orb_true_iff, ends_u12. split.
  - intros [(b & t & E & Ht)|H].
    + exists b, t. auto.
    + destruct (rev s) as [|c r] eqn:E; [discriminate|].
      apply andb_prop in H as [H H2]. apply andb_prop in H as [H0 H1].
      apply Ascii.eqb_eq in H0. subst c.
      assert (Hs : s = rev r ++ [nl]).
      { rewrite <- (rev_involutive s), E. reflexivity. }
      assert (H3 : (13 <=? length (rev r))%nat && underscore_12_digits
                 (skipn (length (rev r) - 13) (rev r)) = true).
      { rewrite rev_length, H1, H2. auto. }
      apply ends_u12 in H3 as (b & t & E3 & Ht).
      exists b, t. split; auto. right. rewrite Hs, E3, <- !app_assoc. reflexivity.
  - intros (b & t & Ht & [E|E]).
    + left. eauto.
    + right. rewrite E. rewrite !app_assoc, rev_app_distr. cbn [rev app].
      rewrite Ascii.eqb_refl. cbn [andb].
      rewrite rev_involutive.
      assert (H : (13 <=? length ((b ++ lit "_") ++ t))%nat && underscore_12_digits
                 (skipn (length ((b ++ lit "_") ++ t) - 13) ((b ++ lit "_") ++ t)) = true).
      { apply ends_u12. exists b, t. rewrite app_assoc. auto. }
      rewrite rev_length. auto.
Qed.

Lemma ts_pair_append : forall s t, twelve_digits t ->
  get_filename_and_timestamp_pair (s ++ lit "_" ++ t) = (s, t).
Proof.
  intros s t Ht. unfold get_filename_and_timestamp_pair.
  assert (E : has_filename_timestamp (s ++ lit "_" ++ t) = true).
  { apply has_ts_spec. eauto. }
  rewrite E. destruct Ht as [Hl _]. f_equal.
  - apply py_to_app; rewrite app_length; cbn [length lit list_ascii_of_string]; lia.
  - rewrite app_assoc. apply py_from_app; lia.
Qed.

Lemma ts_pair_default : forall s,
  (forall b t, twelve_digits t -> s <> b ++ lit "_" ++ t /\ s <> b ++ lit "_" ++ t ++ [nl]) ->
  get_filename_and_timestamp_pair s = (s, lit "000000000000").
Proof.
  intros s H. unfold get_filename_and_timestamp_pair.
  destruct (has_filename_timestamp s) eqn:E; auto.
  apply has_ts_spec in E as (b & t & Ht & [->| ->]); destruct (H b t Ht); congruence.
Qed.

Lemma ts_pair_digits : forall s b t,
  (forall b, s <> b ++ [nl]) ->
  get_filename_and_timestamp_pair s = (b, t) -> twelve_digits t.
Proof.
  intros s b t Hnl H.
  destruct (has_filename_timestamp s) eqn:E.
  - apply has_ts_spec in E as (b' & t' & Ht & [-> | ->]).
    + rewrite ts_pair_append in H by auto. inv H. auto.
    + exfalso. apply (Hnl (b' ++ lit "_" ++ t')). rewrite <- !app_assoc. auto.
  - unfold get_filename_and_timestamp_pair in H. rewrite E in H. inv H. split; reflexivity.
Qed.

(* ------------------------------------------------------------------ *)
(** * File names of MPI parts *)

Lemma all_digits_isdigit : forall s, all_digits s = true -> isdigit s = true.
Proof.
  intros s H. unfold all_digits, isdigit in *. destruct s; auto.
  rewrite forallb_forall in *. intros c Hc. rewrite H; auto.
Qed.

Lemma py_int_all_digits : forall s, all_digits s = true -> py_int s = Ok (digits_val s).
Proof.
  intros s H. pose proof (py_int_digits [] s [] eq_refl eq_refl H) as E.
  simpl in E. rewrite app_nil_r in E. auto.
Qed.

Lemma split_filename_parts : forall st m t e,
  length m = 5%nat -> all_digits m = true -> twelve_digits t -> length e = 3%nat ->
  dummy_split_filename (st ++ lit "_" ++ m ++ lit "_" ++ t ++ lit "." ++ e)
  = Ok (st, Some (digits_val m), Some (digits_val t), e).
Proof.
  intros st m t e Hm Hmd [Ht Htd] He. unfold dummy_split_filename.
  assert (Htd' : all_digits t = true) by (unfold all_digits; destruct t; auto; discriminate).
  replace (py_to (st ++ lit "_" ++ m ++ lit "_" ++ t ++ lit "." ++ e) (-23)) with st.
  2:{ symmetry. apply py_to_app; rewrite !app_length, Hm, Ht, He; cbn; lia. }
  replace (py_slice (st ++ lit "_" ++ m ++ lit "_" ++ t ++ lit "." ++ e) (-22) (-17)) with m.
  2:{ symmetry. rewrite (app_assoc st (lit "_")). apply py_slice_mid;
      rewrite !app_length, ?Hm, Ht, He; cbn; lia. }
  replace (py_slice (st ++ lit "_" ++ m ++ lit "_" ++ t ++ lit "." ++ e) (-16) (-4)) with t.
  2:{ symmetry. rewrite (app_assoc m (lit "_")), (app_assoc (lit "_") (m ++ lit "_")),
      (app_assoc st). apply py_slice_mid;
      rewrite !app_length, ?Ht, He; cbn; lia. }
  replace (py_from (st ++ lit "_" ++ m ++ lit "_" ++ t ++ lit "." ++ e) (-3)) with e.
  2:{ symmetry. rewrite !app_assoc. apply py_from_app; rewrite He; cbn; lia. }
  rewrite (all_digits_isdigit m), (all_digits_isdigit t) by auto.
  rewrite !py_int_all_digits by auto. reflexivity.
Qed.

Lemma nat_str_length_le : forall n k, (N.of_nat n < 10 ^ N.of_nat k)%N -> (1 <= k)%nat ->
  (length (nat_str n) <= k)%nat.
Proof. intros. apply digits_length_le; auto. Qed.

Lemma nat_str_length_ge : forall n k, (10 ^ N.of_nat k <= N.of_nat n)%N ->
  (k < length (nat_str n))%nat.
Proof.
  intros. apply digits_length_ge; auto.
  pose proof (size_nat_bound (N.of_nat n)). rewrite Nat.pow_succ_r'. lia.
Qed.

Lemma pad0_length : forall w s, (length s <= w)%nat -> length (pad0 w s) = w.
Proof. intros. unfold pad0. rewrite app_length, repeat_length. lia. Qed.

Lemma pad0_id : forall w s, (w <= length s)%nat -> pad0 w s = s.
Proof. intros. unfold pad0. replace (w - length s)%nat with 0%nat by lia. auto. Qed.

Lemma pad0_all_digits : forall w s, all_digits s = true -> all_digits (pad0 w s) = true.
Proof.
  intros w s H. unfold pad0. assert (forallb is_digit (repeat "0"%char (w - length s) ++ s) = true).
  { rewrite forallb_app. apply andb_true_intro. split.
    - apply forallb_forall. intros c Hc. apply repeat_spec in Hc. subst. auto.
    - unfold all_digits in H. destruct s; auto. }
  unfold all_digits. destruct (repeat "0"%char (w - length s) ++ s) eqn:E; auto.
  apply app_eq_nil in E as [_ ->]. discriminate.
Qed.

Lemma pad0_val : forall w n, digits_val (pad0 w (nat_str n)) = Z.of_nat n.
Proof. intros. unfold pad0. rewrite digits_val_zeros. apply nat_str_val. Qed.

Lemma mpi_filename_split : forall base zi ts e,
  (Z.of_nat zi < 100000)%Z -> twelve_digits ts -> length e = 3%nat ->
  dummy_split_filename (mpi_filename base zi ts (lit "." ++ e))
  = Ok (base, Some (Z.of_nat zi), Some (digits_val ts), e).
Proof.
  intros base zi ts e Hz Ht He. unfold mpi_filename.
  assert (length (nat_str zi) <= 5)%nat.
  { apply nat_str_length_le; [|lia]. change (10 ^ N.of_nat 5)%N with 100000%N. lia. }
  rewrite split_filename_parts; auto.
  - rewrite pad0_val. reflexivity.
  - apply pad0_length; auto.
  - apply pad0_all_digits, all_digits_N_str.
Qed.

Lemma py_to_length : forall A (l : list A) j, (j < 0)%Z ->
  length (py_to l j) = (length l - Z.to_nat (- j))%nat.
Proof.
  intros A l j H. unfold py_to. rewrite py_bound_neg by auto.
  rewrite firstn_length. lia.
Qed.

Lemma mpi_filename_recognised_iff : forall base zi ts,
  twelve_digits ts ->
  is_filename_correct_crys_cry_file (mpi_filename base zi ts (lit ".cry")) base = Ok true
  <-> (Z.of_nat zi < 100000)%Z.
Proof.
  intros base zi ts Ht. split.
  - intros H. destruct (Z_lt_ge_dec (Z.of_nat zi) 100000) as [|Hge]; auto. exfalso.
    assert (Hl : (5 < length (nat_str zi))%nat).
    { apply nat_str_length_ge. change (10 ^ N.of_nat 5)%N with 100000%N. lia. }
    unfold is_filename_correct_crys_cry_file, is_filename_correct in H.
    apply rbind_ok in H as ([[[s m] t] e] & Hs & H).
    unfold dummy_split_filename in Hs.
    apply rbind_ok in Hs as (md & _ & Hs). apply rbind_ok in Hs as (td & _ & Hs).
    assert (E0 : s = py_to (mpi_filename base zi ts (lit ".cry")) (-23)) by congruence.
    clear Hs. injection H as H1. apply andb_prop in H1 as [H1 _]. apply andb_prop in H1 as [H1 _].
    apply andb_prop in H1 as [H1 _]. apply str_eqb_eq in H1.
    assert (E : length base = length (py_to (mpi_filename base zi ts (lit ".cry")) (-23)))
      by congruence.
    rewrite py_to_length in E by lia. unfold mpi_filename in E.
    rewrite !app_length, pad0_id in E by lia. destruct Ht as [Ht _]. rewrite Ht in E.
    cbn [length lit list_ascii_of_string] in E. lia.
  - intros Hz. change (lit ".cry") with (lit "." ++ lit "cry").
    unfold is_filename_correct_crys_cry_file, is_filename_correct.
    rewrite mpi_filename_split by auto. cbn [rbind].
    rewrite str_eqb_refl. reflexivity.
Qed.

(* ------------------------------------------------------------------ *)
(** * Grouping *)

Lemma first_occ_snoc : forall A (dec : forall x y : A, {x = y} + {x <> y}) l x,
  first_occ dec (l ++ [x]) = if in_dec dec x l then first_occ dec l else first_occ dec l ++ [x].
Proof.
  intros A dec l x. unfold first_occ. rewrite rev_app_distr. cbn [rev app nodup].
  destruct (in_dec dec x (rev l)) as [H|H]; destruct (in_dec dec x l) as [H'|H']; auto.
  - exfalso. apply H'. apply in_rev; auto.
  - exfalso. apply H. apply in_rev in H'; auto.
Qed.

Lemma first_occ_In : forall A (dec : forall x y : A, {x = y} + {x <> y}) l x,
  In x (first_occ dec l) <-> In x l.
Proof. intros. unfold first_occ. rewrite <- in_rev, nodup_In, <- in_rev. tauto. Qed.

Lemma group_invariant : forall fs,
  let d := group_txt_files_by_timestamps fs in
  keys d = first_occ str_dec (map file_ts fs) /\
  forall tm, dget str_dec d tm =
    match filter (fun f => str_eqb (file_ts f) tm) fs with [] => None | l => Some l end.
Proof.
  intros fs. unfold group_txt_files_by_timestamps.
  induction fs as [|f fs IH] using rev_ind; [split; reflexivity|].
  rewrite fold_left_app. cbn [fold_left].
  set (d := fold_left group_step fs []) in *. destruct IH as [IHk IHg].
  unfold group_step. change (py_slice f (-16) (-4)) with (file_ts f).
  assert (E : match dget str_dec d (file_ts f) with
              | Some v => dset str_dec d (file_ts f) (v ++ [f])
              | None => dset str_dec d (file_ts f) [f] end
          = dset str_dec d (file_ts f)
              (filter (fun g => str_eqb (file_ts g) (file_ts f)) fs ++ [f])).
  { rewrite (IHg (file_ts f)).
    destruct (filter (fun g => str_eqb (file_ts g) (file_ts f)) fs); reflexivity. }
  rewrite E. split.
  - rewrite keys_dset, IHk, map_app. cbn [map]. rewrite first_occ_snoc.
    destruct (in_dec str_dec (file_ts f) (first_occ str_dec (map file_ts fs))) as [H|H];
      rewrite first_occ_In in H; destruct (in_dec str_dec _ (map file_ts fs)); tauto.
  - intros tm. rewrite dget_dset, filter_app. cbn [filter].
    destruct (str_dec tm (file_ts f)) as [->|Hn].
    + rewrite str_eqb_refl. destruct (filter (fun g => str_eqb (file_ts g) (file_ts f)) fs); auto.
    + assert (str_eqb (file_ts f) tm = false) as ->.
      { destruct (str_eqb (file_ts f) tm) eqn:E2; auto. apply str_eqb_eq in E2. congruence. }
      rewrite app_nil_r. apply IHg.
Qed.
