(** Proofs about load_faces_calc_data and merge. *)

From Coq Require Import ZArith NArith Ascii String Bool Lia List Permutation.
From Verif Require Import Py PyLemmas Heap HeapLemmas GridModel GridSpec GridIO FileSpec MpiSpec StoreSpec Utils
  LoadParse LoadMain LoadFresh LoadProps StoreProofs RoundTrip SamplesStore PlainProofs Driver DriverSpec.
Import ListNotations.
Open Scope list_scope.
Open Scope nat_scope.

Section Calc.
  Context {F : FloatOps}.

  Lemma take1 : forall ls, take_lines 1 ls = ([fst (readline ls)], snd (readline ls)).
  Proof. intros [|l ls]; reflexivity. Qed.

  Lemma calc_vars_spec : forall line vars, calc_vars line = Ok vars <-> calc_header line vars.
  Proof.
    intros line vars. unfold calc_vars, calc_header. rewrite after_eq_spec. cbn [rbind]. split.
    - intros H. injection H as <-. exists (last (split_on eqsign line) []). split; [reflexivity|].
      destruct (split_ws _); reflexivity.
    - intros (s & -> & ->). reflexivity.
  Qed.

  Lemma vals_spec : forall ss vs,
    rmap (fun s => match prs s with Some v => Ok v | None => Raise EValueError end) ss = Ok vs <->
    Forall2 (fun s v => prs s = Some v) ss vs.
  Proof.
    intros ss vs. rewrite rmap_ok_Forall2. split; intros H.
    - induction H as [|s v ss vs Hs H IH]; constructor; auto. destruct (prs s); congruence.
    - induction H as [|s v ss vs Hs H IH]; constructor; auto. rewrite Hs. auto.
  Qed.

  (** The data after some rows. *)
  Definition put (fs : list nat) (vars : list str) (d : nat -> dict str val) (r : Z * list val) : nat -> dict str val :=
    match py_get fs (fst r) with
    | Ok f => upd d f (dict_of str_dec (combine vars (snd r)))
    | Raise _ => d
    end.

  Lemma calc_line_ok : forall vars line r h f, calc_row line r -> py_get (g_faces h) (fst r) = Ok f ->
    calc_line vars line h = (Ok tt, set_f_data h (put (g_faces h) vars (f_data h) r)).
  Proof.
    intros vars line r h f (s0 & ss & E & Ei & Hv) Hf. unfold calc_line. rewrite E.
    change (py_get (s0 :: ss) 0) with (Ok s0). rewrite bind_lift_ok, Ei, bind_lift_ok.
    cbn [skipn]. apply vals_spec in Hv. rewrite Hv, bind_lift_ok, bind_gets, Hf, bind_lift_ok.
    unfold put. rewrite Hf. reflexivity.
  Qed.

  Lemma lift_inv2 : forall A (r : res A) h a h', lift r h = (Ok a, h') -> r = Ok a /\ h' = h.
  Proof. intros A [x|e] h a h' H; cbn in H; inversion H; auto. Qed.

  Lemma calc_line_inv : forall vars line h h', calc_line vars line h = (Ok tt, h') ->
    exists r f, calc_row line r /\ py_get (g_faces h) (fst r) = Ok f.
  Proof.
    intros vars line h h' E. unfold calc_line in E.
    apply bind_inv in E as (s0 & h1 & E1 & E). apply lift_inv2 in E1 as [E1 ->].
    apply bind_inv in E as (g & h1 & E2 & E). apply lift_inv2 in E2 as [E2 ->].
    apply bind_inv in E as (vs & h1 & E3 & E). apply lift_inv2 in E3 as [E3 ->].
    rewrite bind_gets in E. apply bind_inv in E as (f & h1 & E4 & _). apply lift_inv2 in E4 as [E4 _].
    exists (g, vs), f. split; [|exact E4]. apply vals_spec in E3.
    destruct (split_ws line) as [|s ss] eqn:Es; [discriminate|]. cbn in E1. injection E1 as <-.
    exists s, ss. auto.
  Qed.

  Lemma calc_loop_ok : forall vars ls rows h, Forall2 calc_row ls rows ->
    (forall r, In r rows -> exists f, py_get (g_faces h) (fst r) = Ok f) ->
    for_each ls (calc_line vars) h = (Ok tt, set_f_data h (fold_left (put (g_faces h) vars) rows (f_data h))).
  Proof.
    intros vars ls rows h H. revert h. induction H as [|line r ls rows Hr H IH]; intros h Hf.
    - destruct h; reflexivity.
    - destruct (Hf r (or_introl eq_refl)) as (f & Ef). cbn [for_each].
      rewrite (bind_run _ _ _ _ _ _ _ (calc_line_ok vars line r h f Hr Ef)).
      rewrite IH; [reflexivity|]. intros r' Hr'. apply (Hf r'). right. auto.
  Qed.

  Lemma calc_loop_inv : forall vars ls h h', for_each ls (calc_line vars) h = (Ok tt, h') ->
    exists rows, Forall2 calc_row ls rows /\ forall r, In r rows -> exists f, py_get (g_faces h) (fst r) = Ok f.
  Proof.
    intros vars. induction ls as [|line ls IH]; intros h h' E.
    - exists []. split; [constructor|intros r []].
    - cbn [for_each] in E. apply bind_inv in E as ([] & h1 & E1 & E).
      destruct (calc_line_inv _ _ _ _ E1) as (r & f & Hr & Ef).
      rewrite (calc_line_ok vars line r h f Hr Ef) in E1. injection E1 as <-.
      destruct (IH _ _ E) as (rows & H1 & H2). exists (r :: rows). split; [constructor; auto|].
      intros r' [<-|K]; [eauto|]. exact (H2 r' K).
  Qed.

  Lemma calc_ok : forall text vars rows h, calc_file text vars rows ->
    (forall r, In r rows -> exists f, py_get (g_faces h) (fst r) = Ok f) ->
    load_faces_calc_data text h = (Ok tt, set_f_data h (fold_left (put (g_faces h) vars) rows (f_data h))).
  Proof.
    intros text vars rows h (line & ls & E & Hh & Hr) Hf. rewrite take1 in E. unfold load_faces_calc_data.
    destruct (readline (file_lines text)) as [l0 r0]. cbn [fst snd] in E. injection E as -> ->.
    apply calc_vars_spec in Hh. rewrite Hh, bind_lift_ok. apply calc_loop_ok; auto.
  Qed.

  Lemma calc_accepts_only : forall text h h', load_faces_calc_data text h = (Ok tt, h') ->
    exists vars rows, calc_file text vars rows /\
      forall r, In r rows -> (- Z.of_nat (length (g_faces h)) <= fst r < Z.of_nat (length (g_faces h)))%Z.
  Proof.
    intros text h h' E. unfold load_faces_calc_data in E.
    pose proof (take1 (file_lines text)) as T. destruct (readline (file_lines text)) as [line ls]. cbn [fst snd] in T.
    apply bind_inv in E as (vars & h1 & E1 & E). apply lift_inv2 in E1 as [E1 ->]. apply calc_vars_spec in E1.
    destruct (calc_loop_inv _ _ _ _ E) as (rows & H1 & H2). exists vars, rows. split.
    - exists line, ls. auto.
    - intros r Hr. destruct (H2 r Hr) as (f & Hf). unfold py_get, py_index in Hf.
      destruct (Z.leb_spec 0 (fst r)); destruct (Z.ltb_spec (fst r) (Z.of_nat (length (g_faces h)))) in Hf;
        try discriminate; try lia.
      destruct (Z.leb_spec 0 (Z.of_nat (length (g_faces h)) + fst r)); try lia; discriminate.
  Qed.

  Lemma put_other : forall fs vars r d f, ~ (exists i, py_index (length fs) (fst r) = Some i /\ nth_error fs i = Some f) ->
    put fs vars d r f = d f.
  Proof.
    intros fs vars r d f H. unfold put. destruct (py_get fs (fst r)) as [g|] eqn:E; [|auto].
    unfold upd. destruct (Nat.eqb_spec f g) as [->|]; auto. exfalso. apply H. unfold py_get in E.
    destruct (py_index (length fs) (fst r)) as [i|]; [|discriminate]. exists i. split; auto.
    destruct (nth_error fs i); congruence.
  Qed.

  Lemma fold_put_other : forall fs vars rows d f,
    (forall r i, In r rows -> py_index (length fs) (fst r) = Some i -> nth_error fs i <> Some f) ->
    fold_left (put fs vars) rows d f = d f.
  Proof.
    intros fs vars rows. induction rows as [|r rows IH]; intros d f H; [reflexivity|]. cbn [fold_left].
    rewrite IH; [apply put_other|intros; eapply H; simpl; eauto].
    intros (i & E1 & E2). exact (H r i (or_introl eq_refl) E1 E2).
  Qed.

  Lemma py_index_0 : forall n i, (0 <= i)%Z -> py_index n i = if (i <? Z.of_nat n)%Z then Some (Z.to_nat i) else None.
  Proof.
    intros n i H. unfold py_index. destruct (Z.leb_spec 0 i); [|lia]. reflexivity.
  Qed.

  Lemma index_nodup : forall A (l : list A) i j x, NoDup l -> nth_error l i = Some x -> nth_error l j = Some x -> i = j.
  Proof.
    intros A l i j x N H1 H2. apply (proj1 (NoDup_nth_error l) N); [|congruence].
    apply nth_error_Some. congruence.
  Qed.

  Lemma fold_put_last : forall fs vars rows d i f vs, NoDup fs ->
    (forall r, In r rows -> (0 <= fst r < Z.of_nat (length fs))%Z) ->
    nth_error fs i = Some f -> last_row rows i vs ->
    fold_left (put fs vars) rows d f = dict_of str_dec (combine vars vs).
  Proof.
    intros fs vars rows d i f vs N Hr Hi (pre & post & -> & Hp). rewrite fold_left_app. cbn [fold_left].
    rewrite fold_put_other.
    - unfold put at 1. cbn [fst snd]. rewrite (py_get_nat _ _ _ _ Hi). unfold upd. rewrite Nat.eqb_refl. reflexivity.
    - intros r j Hin E1 E2. assert (B : (0 <= fst r < Z.of_nat (length fs))%Z).
      { apply Hr. apply in_or_app. right. right. auto. }
      rewrite py_index_nonneg in E1 by auto. injection E1 as <-.
      pose proof (index_nodup _ _ _ _ _ N E2 Hi). apply Hp. apply in_map_iff. exists r. split; auto. lia.
  Qed.

  (** C29. *)
  Lemma calc_main : forall text vars rows h, calc_file text vars rows -> NoDup (g_faces h) ->
    (forall r, In r rows -> (0 <= fst r < Z.of_nat (length (g_faces h)))%Z) ->
    exists h', load_faces_calc_data text h = (Ok tt, h') /\ h' = set_f_data h (f_data h') /\
      (forall i f vs, nth_error (g_faces h) i = Some f -> last_row rows i vs ->
         f_data h' f = dict_of str_dec (combine vars vs)) /\
      (forall i f, nth_error (g_faces h) i = Some f -> ~ In (Z.of_nat i) (map fst rows) -> f_data h' f = f_data h f) /\
      (forall f, ~ In f (g_faces h) -> f_data h' f = f_data h f).
  Proof.
    intros text vars rows h Hc N Hr.
    assert (Hg : forall r, In r rows -> exists f, py_get (g_faces h) (fst r) = Ok f).
    { intros r K. specialize (Hr r K). destruct (nth_error (g_faces h) (Z.to_nat (fst r))) as [f|] eqn:E.
      - exists f. apply py_get_nat in E. rewrite Z2Nat.id in E by lia. auto.
      - apply nth_error_None in E. lia. }
    eexists. split; [apply calc_ok; eauto|]. cbn [f_data set_f_data]. split; [reflexivity|]. split; [|split].
    - intros i f vs Hi Hl. change (f_data (set_f_data h ?d)) with d. eapply fold_put_last; eauto.
    - intros i f Hi Hn. change (f_data (set_f_data h ?d)) with d. apply fold_put_other.
      intros r j K E1 E2. rewrite py_index_nonneg in E1 by auto. injection E1 as <-.
      pose proof (index_nodup _ _ _ _ _ N E2 Hi). apply Hn. apply in_map_iff. exists r. split; auto.
      specialize (Hr r K). lia.
    - intros f Hf. change (f_data (set_f_data h ?d)) with d. apply fold_put_other.
      intros r j K E1 E2. apply Hf. eapply nth_error_In; eauto.
  Qed.
End Calc.
