(** Proofs about split and merge run on directories. *)

From Coq Require Import ZArith NArith Ascii String Bool Lia List Permutation.
From Verif Require Import Py PyLemmas Utils UtilsSpec UtilsProofs Heap HeapLemmas GridModel GridSpec DecompSpec Mpi GridIO FileSpec StoreSpec LoadProps Driver DriverSpec
  MergeProofs StrategyProofs DriverProofs CycleSpec CycleProofs SolverSpec SolverProofs SolverMain Stamps StampsSpec.
From Verif Require ZamProofs.
Import ListNotations.
Open Scope list_scope.
Open Scope nat_scope.

Lemma digit_range : forall c, is_digit c = true -> (0 <= digit_val c < 10)%Z.
Proof. intros c H. unfold is_digit, digit_val in *. apply andb_prop in H as [A B]. apply Nat.leb_le in A, B. lia. Qed.

Lemma digit_inj : forall c d, is_digit c = true -> is_digit d = true -> digit_val c = digit_val d -> c = d.
Proof.
  intros c d Hc Hd E. unfold is_digit, digit_val in *. apply andb_prop in Hc as [A B], Hd as [A' B']. apply Nat.leb_le in A, B, A', B'.
  rewrite <- (ascii_nat_embedding c), <- (ascii_nat_embedding d). f_equal. lia.
Qed.

Lemma digits_inj : forall a b, length a = length b -> forallb is_digit a = true -> forallb is_digit b = true -> digits_val a = digits_val b -> a = b.
Proof.
  intros a. unfold digits_val. induction a as [|c a IH] using rev_ind; intros b L Ha Hb E.
  - destruct b; [reflexivity|discriminate L].
  - destruct b as [|d b _] using rev_ind; [rewrite app_length in L; cbn in L; lia|].
    rewrite !app_length in L. cbn in L. rewrite forallb_app in Ha, Hb. apply andb_prop in Ha as [Ha Hc], Hb as [Hb Hd].
    cbn [forallb] in Hc, Hd. rewrite andb_true_r in Hc, Hd. rewrite !digits_val_app in E. cbn [fold_left] in E.
    pose proof (digit_range c Hc). pose proof (digit_range d Hd). rewrite (IH b); [|lia|assumption|assumption|lia]. f_equal. f_equal.
    apply digit_inj; auto. lia.
Qed.

Lemma app_split : forall A (a a' b b' : list A), length a = length a' -> a ++ b = a' ++ b' -> a = a' /\ b = b'.
Proof.
  intros A a. induction a as [|x a IH]; intros [|y a'] b b' L E; try discriminate L; [auto|].
  cbn in L, E. injection E as -> E. destruct (IH a' b b') as [-> ->]; auto.
Qed.

Section StampsProofs.
  Context {F : FloatOps}.

  Lemma digits_list : forall s, all_digits s = true -> forallb is_digit s = true.
  Proof. intros [|c s] H; [discriminate H|exact H]. Qed.

  Lemma name_canon : forall nm tm sf i fn, (Z.of_nat i < 100000)%Z -> file_name nm tm sf i fn -> fn = mpi_name nm tm sf i.
  Proof.
    intros nm tm sf i fn Hi (w & E & D & V & _ & L). destruct (name_ok nm tm sf i) as (w' & E' & D' & V' & _ & L').
    rewrite E, E'. do 2 f_equal. f_equal. apply digits_inj; [rewrite L, L'; auto|apply digits_list; auto|apply digits_list; auto|congruence].
  Qed.

  Lemma name_parts : forall nm tm tm' sf i i' fn, (Z.of_nat i < 100000)%Z -> (Z.of_nat i' < 100000)%Z -> file_name nm tm sf i fn -> file_name nm tm' sf i' fn ->
    i = i' /\ tm = tm'.
  Proof.
    intros nm tm tm' sf i i' fn Hi Hi' (w & E & D & V & _ & L) (w' & E' & D' & V' & _ & L').
    rewrite E in E'. apply app_inv_head, app_inv_head in E'. apply app_split in E' as [Ew E']; [|rewrite L, L'; auto].
    apply app_inv_head, app_inv_tail in E'. subst. split; [lia|reflexivity].
  Qed.

  Lemma name_recognised : forall nm tm i, (Z.of_nat i < 100000)%Z -> twelve_digits tm ->
    is_filename_correct_crys_txt_file (mpi_name nm tm (lit ".txt") i) nm = Ok true.
  Proof.
    intros nm tm i Hi Ht. unfold is_filename_correct_crys_txt_file, is_filename_correct.
    change (mpi_name nm tm (lit ".txt") i) with (mpi_filename nm i tm (lit "." ++ lit "txt")).
    rewrite mpi_filename_split by auto. cbn [rbind]. rewrite str_eqb_refl. reflexivity.
  Qed.

  (** The files of split themselves are no texts of the solver. *)
  Lemma cry_ignored : forall nm ts i, (Z.of_nat i < 100000)%Z -> twelve_digits ts ->
    is_filename_correct_crys_txt_file (mpi_name nm ts (lit ".cry") i) nm = Ok false.
  Proof.
    intros nm tm i Hi Ht. unfold is_filename_correct_crys_txt_file, is_filename_correct.
    change (mpi_name nm tm (lit ".cry") i) with (mpi_filename nm i tm (lit "." ++ lit "cry")).
    rewrite mpi_filename_split by auto. cbn [rbind]. rewrite str_eqb_refl. reflexivity.
  Qed.

  (** Nor are the texts for another grid. *)
  Lemma other_ignored : forall nm nm' tm i, (Z.of_nat i < 100000)%Z -> twelve_digits tm -> nm' <> nm ->
    is_filename_correct_crys_txt_file (mpi_name nm' tm (lit ".txt") i) nm = Ok false.
  Proof.
    intros nm nm' tm i Hi Ht Hn. unfold is_filename_correct_crys_txt_file, is_filename_correct.
    change (mpi_name nm' tm (lit ".txt") i) with (mpi_filename nm' i tm (lit "." ++ lit "txt")).
    rewrite mpi_filename_split by auto. cbn [rbind]. destruct (str_eqb nm' nm) eqn:E; [apply str_eqb_eq in E; contradiction|reflexivity].
  Qed.

  Lemma name_stamp : forall nm tm i, twelve_digits tm -> file_ts (mpi_name nm tm (lit ".txt") i) = tm.
  Proof.
    intros nm tm i [L _]. unfold file_ts, mpi_name. rewrite (app_assoc (pad0 5 (nat_str i))), (app_assoc (lit "_") (pad0 5 (nat_str i) ++ lit "_")), (app_assoc nm).
    apply py_slice_mid; cbn; lia.
  Qed.

  Lemma opened_perm : forall d fs fs', Permutation fs fs' -> forall txts, opened d fs txts -> exists txts', opened d fs' txts' /\ Permutation txts txts'.
  Proof.
    intros d fs fs' P. induction P as [|x l l' P IH|x y l|l l' l'' P IH P' IH']; intros txts H.
    - exists txts. split; auto.
    - inversion H as [|? t ? ts H1 H2]; subst. destruct (IH ts H2) as (ts' & A & B). exists (t :: ts'). split; [constructor; auto|auto].
    - inversion H as [|? t ? ts H1 H2]; subst. inversion H2 as [|? t' ? ts' H3 H4]; subst. exists (t' :: t :: ts').
      split; [constructor; [exact H3|constructor; [exact H1|exact H4]]|apply perm_swap].
    - destruct (IH txts H) as (t1 & A & B). destruct (IH' t1 A) as (t2 & C & D). exists t2. split; [exact C|]. eapply Permutation_trans; eauto.
  Qed.

  Lemma tables_perm : forall vars txts txts', Permutation txts txts' -> forall tabs, Forall2 (fun t tab => calc_file t vars tab) txts tabs ->
    exists tabs', Forall2 (fun t tab => calc_file t vars tab) txts' tabs' /\ Permutation (concat tabs) (concat tabs').
  Proof.
    intros vars txts txts' P. induction P as [|x l l' P IH|x y l|l l' l'' P IH P' IH']; intros tabs H.
    - exists tabs. split; auto.
    - inversion H as [|? t ? ts H1 H2]; subst. destruct (IH ts H2) as (ts' & A & B). exists (t :: ts'). split; [constructor; auto|].
      cbn [concat]. apply Permutation_app; auto.
    - inversion H as [|? t ? ts H1 H2]; subst. inversion H2 as [|? t' ? ts' H3 H4]; subst. exists (t' :: t :: ts').
      split; [constructor; [exact H3|constructor; [exact H1|exact H4]]|]. cbn [concat]. rewrite !app_assoc. apply Permutation_app_tail. apply Permutation_app_comm.
    - destruct (IH tabs H) as (t1 & A & B). destruct (IH' t1 A) as (t2 & C & D). exists t2. split; [exact C|]. eapply Permutation_trans; eauto.
  Qed.

  Lemma covering_perm : forall zs txts txts' vars rows, Permutation txts txts' -> covering zs txts vars rows -> covering zs txts' vars rows.
  Proof.
    intros zs txts txts' vars rows P (N & L & R & tabs & T & C). destruct (tables_perm _ _ _ P _ T) as (tabs' & T' & C').
    split; [exact N|]. split; [exact L|]. split; [exact R|]. exists tabs'. split; [exact T'|]. eapply Permutation_trans; [apply Permutation_sym; exact C'|exact C].
  Qed.

  Lemma dict_entry : forall V (d : dict str V) k v, NoDup (keys d) -> In (k, v) d -> dget str_dec d k = Some v.
  Proof.
    intros V d. induction d as [|[k' v'] d IH]; intros k v N H; [destruct H|]. cbn [keys map] in N. inversion N as [|? ? N1 N2]; subst.
    cbn [dget]. destruct H as [H|H].
    - injection H as -> ->. destruct (str_dec k k); [reflexivity|contradiction].
    - destruct (str_dec k k') as [->|_]; [|apply IH; auto]. exfalso. apply N1. apply (in_map fst _ _ H).
  Qed.

  Lemma dict_value : forall V (d : dict str V) k v, dget str_dec d k = Some v -> In (k, v) d.
  Proof.
    intros V d. induction d as [|[k' v'] d IH]; intros k v H; [discriminate H|]. cbn [dget] in H.
    destruct (str_dec k k') as [->|_]; [injection H as ->; left; reflexivity|right; apply IH; exact H].
  Qed.

  Lemma first_occ_nodup : forall A (dec : forall x y : A, {x = y} + {x <> y}) l, NoDup (first_occ dec l).
  Proof. intros A dec l. unfold first_occ. apply NoDup_rev. apply NoDup_nodup. Qed.

  Lemma filter_sub : forall A (b : A -> bool) (p : A -> Prop) l, (forall x, In x l -> (b x = true <-> p x)) -> sublist_of p l (filter b l).
  Proof.
    intros A b p l. induction l as [|x l IH]; intros H; [constructor|]. cbn [filter].
    pose proof (H x (or_introl eq_refl)) as Hx. assert (IH' : sublist_of p l (filter b l)) by (apply IH; intros; apply H; right; auto).
    destruct (b x); [apply sub_keep; [apply Hx; reflexivity|exact IH']|apply sub_drop; [intros K; apply Hx in K; discriminate K|exact IH']].
  Qed.

  Lemma run_split : forall stem nm ts text strat fixed rf h hs files, get_filename_and_timestamp_pair stem = (nm, ts) ->
    split_run stem (Some text) (lit ".dat") strat fixed rf h = (Ok files, hs) ->
    exists ms, split (Some text) (lit ".dat") strat fixed rf ToMpi h = (Ok (WMpi ms), hs) /\ store_mpi nm ts (lit ".cry") hs = Ok files.
  Proof.
    intros stem nm ts text strat fixed rf h hs files En E. unfold split_run in E. rewrite En in E.
    change (str_eqb (lit ".dat") (lit ".dat")) with true in E. cbv iota in E.
    apply bind_inv in E as ([] & h1 & E1 & E). rewrite bind_gets in E. apply lift_inv2 in E as [E <-].
    pose proof E as E'. unfold store_mpi in E'. apply rbind_ok in E' as (ms & Em & _). exists ms. split; [|exact E].
    unfold split. change (str_eqb (lit ".dat") (lit ".dat")) with true. cbv iota. rewrite (bind_run _ _ _ _ _ _ _ E1), bind_gets. cbv beta.
    unfold write_out. rewrite Em. reflexivity.
  Qed.

  Lemma split_to_run : forall stem nm ts text strat fixed rf h hs ms files, get_filename_and_timestamp_pair stem = (nm, ts) ->
    split (Some text) (lit ".dat") strat fixed rf ToMpi h = (Ok (WMpi ms), hs) -> store_mpi nm ts (lit ".cry") hs = Ok files ->
    split_run stem (Some text) (lit ".dat") strat fixed rf h = (Ok files, hs).
  Proof.
    intros stem nm ts text strat fixed rf h hs ms files En E Es. apply split_inv in E as (_ & E & _).
    unfold split_run. rewrite En. change (str_eqb (lit ".dat") (lit ".dat")) with true. cbv iota. rewrite (bind_run _ _ _ _ _ _ _ E), bind_gets. cbv beta.
    rewrite Es. reflexivity.
  Qed.

  Theorem directories_grid : forall stem nm ts text strat fixed rf h hs files evs d tms vars tabs h0, faithful_numbers -> order_ok ->
    get_filename_and_timestamp_pair stem = (nm, ts) ->
    file_form [] (file_lines text) evs -> no_degenerate (zones_of evs) -> faces_in (zones_of evs) <> 0 ->
    split_run stem (Some text) (lit ".dat") strat fixed rf h = (Ok files, hs) ->
    (Z.of_nat (length files) <= 100000)%Z -> (forall tm, In tm tms -> twelve_digits tm) ->
    solver_dir nm files tms vars tabs d ->
    exists outs h', merge_run stem (Some text) d h0 = (Ok outs, h') /\ NoDup (map fst outs) /\
      (forall n, In n (map fst outs) <-> exists tm, In tm tms /\ n = merged_name nm tm) /\
      forall tm out, In tm tms -> In (merged_name nm tm, out) outs ->
        forall h1, exists h2, load true out h1 = (Ok tt, h2) /\ (exists rows, length rows = faces_in (zones_of evs) /\ merged_grid (titled evs) (zones_of evs) (vars tm) rows h2) /\
          length (g_faces h2) = faces_in (zones_of evs) /\
          forall i n c m j g ps vs, nth_error files i = Some (n, c) -> read_cry c = Some m -> cry_face m j g ps -> In (g, vs) (tabs tm i) ->
            exists f, (0 <= g)%Z /\ nth_error (g_faces h2) (Z.to_nat g) = Some f /\ map (n_p h2) (f_nodes h2 f) = ps /\
              f_data h2 f = dict_of str_dec (combine (vars tm) vs).
  Proof.
    intros stem nm ts text strat fixed rf h hs files evs d tms vars tabs h0 Hn Ho En Hf Nd Nf Es Ln Ht (Dn & Dv & Dk & Da).
    destruct (run_split _ _ _ _ _ _ _ _ _ _ En Es) as (ms & Esp & Est).
    destruct (split_read _ _ _ _ _ _ _ _ nm ts (lit ".cry") Hn Ho Hf Nd Nf Esp) as (files' & E1 & L & _ & Q).
    rewrite Est in E1. injection E1 as E. subst files'.
    set (n := length files) in *. set (canon := fun tm i => mpi_name nm tm (lit ".txt") i).
    assert (Hi5 : forall i, i < n -> (Z.of_nat i < 100000)%Z) by (intros; lia).
    assert (Hidx : forall i p, nth_error files i = Some p -> i < n) by (intros i p K; apply nth_error_Some; congruence).
    assert (Dg : forall fn t, In (fn, t) d -> dget str_dec d fn = Some t) by (intros; apply dict_entry; auto).
    (* the answers *)
    assert (Ca : forall tm i, In tm tms -> i < n -> exists t, dget str_dec d (canon tm i) = Some t /\ forall n' c, nth_error files i = Some (n', c) -> solved (vars tm) c t (tabs tm i)).
    { intros tm i Htm Hi. destruct (Da tm i Htm Hi) as (fn & Hfn & Hd). apply in_map_iff in Hd as ([fn' t] & Ef & Hd). cbn in Ef. subst fn'.
      exists t. unfold canon. rewrite <- (name_canon _ _ _ _ _ (Hi5 i Hi) Hfn). split; [apply Dg; exact Hd|]. intros n' c Hc.
      destruct (Dk fn t Hd) as [K|(tm' & i' & n1 & c1 & K1 & K2 & K3 & K4)].
      - rewrite (name_canon _ _ _ _ _ (Hi5 i Hi) Hfn), (name_recognised _ _ _ (Hi5 i Hi) (Ht tm Htm)) in K. discriminate K.
      - destruct (name_parts _ _ _ _ _ _ _ (Hi5 i Hi) (Hi5 i' (Hidx _ _ K2)) Hfn K3) as [Ei Et]. subst i' tm'. rewrite Hc in K2. injection K2 as _ Ec. subst c1. exact K4. }
    set (txt := fun tm i => match dget str_dec d (canon tm i) with Some t => t | None => [] end).
    assert (Ct : forall tm i, In tm tms -> i < n -> dget str_dec d (canon tm i) = Some (txt tm i) /\ forall n' c, nth_error files i = Some (n', c) -> solved (vars tm) c (txt tm i) (tabs tm i)).
    { intros tm i Htm Hi. destruct (Ca tm i Htm Hi) as (t & A & B). unfold txt. rewrite A. split; [reflexivity|exact B]. }
    clear Ca.
    (* recognised names *)
    set (recb := fun fn => match is_filename_correct_crys_txt_file fn nm with Ok true => true | _ => false end).
    set (mf := filter recb (map fst d)).
    assert (Hall : forall fn, In fn (map fst d) -> is_filename_correct_crys_txt_file fn nm = Ok false \/ exists tm i, In tm tms /\ i < n /\ fn = canon tm i).
    { intros fn H. apply in_map_iff in H as ([fn' t] & Ef & H). cbn in Ef. subst fn'. destruct (Dk fn t H) as [K|(tm & i & n1 & c1 & K1 & K2 & K3 & _)]; [left; exact K|right].
      exists tm, i. pose proof (Hidx _ _ K2) as Hi. split; [exact K1|]. split; [exact Hi|]. apply name_canon; auto. }
    assert (Hrec : forall tm i, In tm tms -> i < n -> is_filename_correct_crys_txt_file (canon tm i) nm = Ok true) by (intros; apply name_recognised; auto).
    assert (Hmf : forall fn, In fn mf <-> exists tm i, In tm tms /\ i < n /\ fn = canon tm i).
    { intros fn. unfold mf. rewrite filter_In. unfold recb. split.
      - intros [H1 H2]. destruct (Hall fn H1) as [K|K]; [rewrite K in H2; discriminate H2|exact K].
      - intros (tm & i & H1 & H2 & H3). subst fn. split; [|rewrite (Hrec tm i H1 H2); reflexivity].
        destruct (Ct tm i H1 H2) as [A _]. apply dict_value in A. apply (in_map fst) in A. exact A. }
    assert (Sub : sublist_of (fun fn => is_filename_correct_crys_txt_file fn nm = Ok true) (map fst d) mf).
    { apply filter_sub. intros fn _. unfold recb. destruct (is_filename_correct_crys_txt_file fn nm) as [[|]|]; split; intros K; try discriminate K; reflexivity. }
    assert (Tot : forall fn, In fn (map fst d) -> exists b, is_filename_correct_crys_txt_file fn nm = Ok b).
    { intros fn H. destruct (Hall fn H) as [K|(tm & i & H1 & H2 & H3)]; [exists false; exact K|exists true; subst fn; apply Hrec; auto]. }
    (* groups *)
    destruct (group_invariant mf) as [Gk Gg].
    assert (Gn : NoDup (keys (group_txt_files_by_timestamps mf))) by (rewrite Gk; apply first_occ_nodup).
    assert (Gt : forall tm, In tm (keys (group_txt_files_by_timestamps mf)) -> In tm tms).
    { intros tm H. rewrite Gk, first_occ_In in H. apply in_map_iff in H as (fn & H1 & H2). apply Hmf in H2 as (tm' & i & K1 & K2 & K3). subst fn.
      unfold canon in H1. rewrite name_stamp in H1 by auto. subst tm'. exact K1. }
    assert (Gp : forall tm fs, In (tm, fs) (group_txt_files_by_timestamps mf) -> Permutation (map (canon tm) (seq 0 n)) fs).
    { intros tm fs H. pose proof (Gt tm (in_map fst _ _ H)) as Htm. pose proof (dict_entry _ _ _ _ Gn H) as E. rewrite Gg in E.
      assert (Ef : fs = filter (fun f => str_eqb (file_ts f) tm) mf) by (destruct (filter (fun f => str_eqb (file_ts f) tm) mf); [discriminate E|injection E as E; auto]).
      apply NoDup_Permutation.
      - apply FinFun.Injective_map_NoDup; [|apply seq_NoDup]. intros i j K. apply (name_inj nm tm (lit ".txt") i j (canon tm i)); [apply name_ok|rewrite K; apply name_ok].
      - rewrite Ef. apply NoDup_filter. unfold mf. apply NoDup_filter. exact Dn.
      - intros fn. rewrite Ef, filter_In, Hmf, in_map_iff. split.
        + intros (i & E1 & E2). apply in_seq in E2. subst fn. split; [exists tm, i; split; [exact Htm|]; split; [lia|reflexivity]|].
          unfold canon. rewrite name_stamp by auto. apply str_eqb_refl.
        + intros [(tm' & i & K1 & K2 & K3) K4]. subst fn. unfold canon in K4. rewrite name_stamp in K4 by auto. apply str_eqb_eq in K4. subst tm'.
          exists i. split; [reflexivity|]. apply in_seq. lia. }
    (* the values of one time stamp *)
    assert (Core : forall tm, In tm tms -> ~ three_share (zones_of evs) /\ exists rows, covering (zones_of evs) (map (txt tm) (seq 0 n)) (vars tm) rows /\
      forall title out h1 h2, load true out h1 = (Ok tt, h2) -> merged_grid title (zones_of evs) (vars tm) rows h2 ->
        length (g_faces h2) = faces_in (zones_of evs) /\
        forall i n' c m j g ps vs, nth_error files i = Some (n', c) -> read_cry c = Some m -> cry_face m j g ps -> In (g, vs) (tabs tm i) ->
          exists f, (0 <= g)%Z /\ nth_error (g_faces h2) (Z.to_nat g) = Some f /\ map (n_p h2) (f_nodes h2 f) = ps /\
            f_data h2 f = dict_of str_dec (combine (vars tm) vs)).
    { intros tm Htm.
      assert (Nth : forall A (g : nat -> A) i x, nth_error (map g (seq 0 n)) i = Some x -> i < n /\ x = g i).
      { intros A g i x K. assert (Li : i < n) by (rewrite <- (seq_length n 0), <- (map_length g); apply nth_error_Some; congruence).
        rewrite nth_error_map, ZamProofs.nth_error_seq in K by exact Li. cbn in K. rewrite ?Nat.add_0_l in K. split; [exact Li|congruence]. }
      destruct (cycle_core text strat fixed rf h hs ms evs (vars tm) (map (txt tm) (seq 0 n)) (map (tabs tm) (seq 0 n)) Ho Hf Nd Esp (Dv tm Htm)) as (Nt & rows & Cv & R).
      - rewrite map_length, seq_length. exact L.
      - rewrite map_length, seq_length. exact L.
      - intros i m t tab H1 H2 H3. apply Nth in H2 as [Hi H2]. apply Nth in H3 as [_ H3]. subst t tab.
        destruct (nth_error files i) as [[n1 c]|] eqn:Ei; [|apply nth_error_None in Ei; unfold n in Hi; lia].
        destruct (Q i n1 c Ei) as (_ & m1 & Q2 & Q3). rewrite H1 in Q3. injection Q3 as E. subst m1.
        destruct (Ct tm i Htm Hi) as [_ K]. destruct (K n1 c Ei) as (m2 & R1 & R2). rewrite Q2 in R1. injection R1 as E. subst m2. exact R2.
      - split; [exact Nt|]. exists rows. split; [exact Cv|]. intros title out h1 h2 E2 Mg. destruct (R title out h1 h2 E2 Mg) as [R1 R2]. split; [exact R1|].
        intros i n' c m j g ps vs Hi Hm Cf Hin. destruct (Q i n' c Hi) as (_ & m1 & Q2 & Q3). rewrite Hm in Q2. injection Q2 as E. subst m1.
        apply (R2 i m (txt tm i) (tabs tm i) j g ps vs Q3); auto; rewrite nth_error_map, ZamProofs.nth_error_seq by (apply (Hidx _ _ Hi)); reflexivity. }
    assert (Op : forall tm fs, In (tm, fs) (group_txt_files_by_timestamps mf) -> exists txts, opened d fs txts /\ Permutation (map (txt tm) (seq 0 n)) txts).
    { intros tm fs H. pose proof (Gt tm (in_map fst _ _ H)) as Htm.
      apply (opened_perm d _ _ (Gp tm fs H)). unfold opened.
      assert (K : forall l, (forall i, In i l -> i < n) -> Forall2 (fun fn t => dget str_dec d fn = Some t) (map (canon tm) l) (map (txt tm) l)).
      { induction l as [|i l IH]; intros Hl; [constructor|]. cbn [map]. constructor; [apply Ct; auto; apply Hl; left; auto|apply IH; intros; apply Hl; right; auto]. }
      apply K. intros i Hi. apply in_seq in Hi. lia. }
    (* there is a file *)
    assert (Pn : 0 < n).
    { destruct (cycle_every _ _ _ _ _ _ _ _ Ho Hf Nd Esp) as [_ K]. destruct (K 0) as (i & m & j & ps & K1 & _); [lia|].
      rewrite L. assert (i < length ms) by (apply nth_error_Some; congruence). lia. }
    assert (T3 : ~ three_share (zones_of evs)).
    { intros K. apply split_inv in Esp as (_ & Esp & _). apply split_decompose_inv in Esp as (hl & hr & st & El & _).
      pose proof (load_rejects_main text (new_grid h) evs Hf K) as Z. rewrite El in Z. discriminate Z. }
    destruct (merge_main nm text d mf evs h0 Hn Hf Nd T3 Nf Tot Sub) as (outs & h' & Em & Fo).
    { intros tm fs H. destruct (Op tm fs H) as (txts & O1 & O2). destruct (Core tm (Gt tm (in_map fst _ _ H))) as (_ & rows & Cv & _).
      exists txts, (vars tm), rows. split; [exact O1|]. exact (covering_perm _ _ _ _ _ O2 Cv). }
    assert (Nm : map fst outs = map (merged_name nm) (keys (group_txt_files_by_timestamps mf))).
    { clear - Fo. induction Fo as [|[tm fs] [nm' out] gs outs [H _] Fo IH]; [reflexivity|]. cbn [keys map fst] in *. f_equal; [exact H|exact IH]. }
    assert (Minj : forall a b, merged_name nm a = merged_name nm b -> a = b).
    { intros a b K. unfold merged_name in K. apply app_inv_head, app_inv_head, app_inv_tail in K. exact K. }
    exists outs, h'. split; [unfold merge_run; rewrite En; exact Em|]. split; [|split].
    - rewrite Nm. apply FinFun.Injective_map_NoDup; [exact Minj|exact Gn].
    - intros x. rewrite Nm, in_map_iff. split.
      + intros (tm & E & H). exists tm. split; [apply Gt; exact H|auto].
      + intros (tm & H & E). exists tm. split; [auto|]. rewrite Gk, first_occ_In. apply in_map_iff. exists (canon tm 0).
        split; [unfold canon; apply name_stamp; auto|]. apply Hmf. exists tm, 0. auto.
    - intros tm out Htm Hout h1. destruct (Core tm Htm) as (_ & rows & Cv & R).
      apply In_nth_error in Hout as (k & Hk). 
      assert (Lk : length (group_txt_files_by_timestamps mf) = length outs) by (clear - Fo; induction Fo; cbn; auto).
      destruct (nth_error (group_txt_files_by_timestamps mf) k) as [[tm' fs]|] eqn:Eg.
      2:{ apply nth_error_None in Eg. assert (k < length outs) by (apply nth_error_Some; congruence). lia. }
      pose proof (nth_f2 _ _ _ _ _ _ _ _ Fo Eg Hk) as [F1 F2]. cbn [fst snd] in F1, F2. fold (merged_name nm tm') in F1. apply Minj in F1. subst tm'.
      destruct (Op tm fs (nth_error_In _ _ Eg)) as (txts & O1 & O2).
      destruct (F2 txts (vars tm) rows O1 (covering_perm _ _ _ _ _ O2 Cv) h1) as (h2 & E2 & Mg). exists h2. split; [exact E2|].
      split; [exists rows; split; [exact (proj1 (proj2 Cv))|exact Mg]|]. exact (R _ _ _ _ E2 Mg).
  Qed.

  Theorem directories : forall stem nm ts text strat fixed rf h hs files evs d tms vars tabs h0, faithful_numbers -> order_ok ->
    get_filename_and_timestamp_pair stem = (nm, ts) ->
    file_form [] (file_lines text) evs -> no_degenerate (zones_of evs) -> faces_in (zones_of evs) <> 0 ->
    split_run stem (Some text) (lit ".dat") strat fixed rf h = (Ok files, hs) ->
    (Z.of_nat (length files) <= 100000)%Z -> (forall tm, In tm tms -> twelve_digits tm) ->
    solver_dir nm files tms vars tabs d ->
    exists outs h', merge_run stem (Some text) d h0 = (Ok outs, h') /\ NoDup (map fst outs) /\
      (forall n, In n (map fst outs) <-> exists tm, In tm tms /\ n = merged_name nm tm) /\
      forall tm out, In tm tms -> In (merged_name nm tm, out) outs ->
        forall h1, exists h2, load true out h1 = (Ok tt, h2) /\ length (g_faces h2) = faces_in (zones_of evs) /\
          forall i n c m j g ps vs, nth_error files i = Some (n, c) -> read_cry c = Some m -> cry_face m j g ps -> In (g, vs) (tabs tm i) ->
            exists f, (0 <= g)%Z /\ nth_error (g_faces h2) (Z.to_nat g) = Some f /\ map (n_p h2) (f_nodes h2 f) = ps /\
              f_data h2 f = dict_of str_dec (combine (vars tm) vs).
  Proof.
    intros stem nm ts text strat fixed rf h hs files evs d tms vars tabs h0 Hn Ho En Hf Nd Nf Es Ln Ht Hd.
    destruct (directories_grid stem nm ts text strat fixed rf h hs files evs d tms vars tabs h0 Hn Ho En Hf Nd Nf Es Ln Ht Hd) as (outs & h' & E1 & E2 & E3 & E4).
    exists outs, h'. split; [exact E1|]. split; [exact E2|]. split; [exact E3|]. intros tm out Htm Hout h1.
    destruct (E4 tm out Htm Hout h1) as (h2 & K1 & _ & K2). exists h2. split; [exact K1|exact K2].
  Qed.
End StampsProofs.
