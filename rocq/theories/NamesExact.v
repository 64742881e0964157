(** Which names of files are recognised as those of zones. *)

From Coq Require Import ZArith NArith Ascii String Bool Lia List.
From Verif Require Import Py PyLemmas Utils UtilsSpec UtilsProofs.
Import ListNotations.
Open Scope list_scope.
Open Scope nat_scope.

Lemma lstrip_none : forall s, forallb (fun c => negb (is_space c)) s = true -> lstrip s = s.
Proof. intros [|c s] H; [reflexivity|]. cbn in *. destruct (is_space c); [discriminate H|reflexivity]. Qed.

Lemma forallb_rev : forall A (f : A -> bool) l, forallb f (rev l) = forallb f l.
Proof. intros A f l. induction l as [|x l IH]; [reflexivity|]. cbn. rewrite forallb_app, IH. cbn. rewrite andb_true_r, andb_comm. reflexivity. Qed.

(** A sequence of digits (in the sense of Python) that `int` takes consists of 0 - 9. *)
Lemma isdigit_int : forall s v, isdigit s = true -> py_int s = Ok v -> all_digits s = true.
Proof.
  intros s v H E. assert (N : forallb (fun c => negb (is_space c)) s = true).
  { apply forallb_forall. intros c Hc. destruct s as [|x s]; [destruct Hc|]. unfold isdigit in H. rewrite forallb_forall in H. specialize (H c Hc). clear - H.
    destruct c as [[] [] [] [] [] [] [] []]; try reflexivity; discriminate H. }
  unfold py_int, strip in E. rewrite (lstrip_none s N), lstrip_none, rev_involutive in E by (rewrite forallb_rev; exact N).
  destruct s as [|c r]; [discriminate E|]. assert (Hc : Ascii.eqb c "-"%char = false /\ Ascii.eqb c "+"%char = false).
  { unfold isdigit in H. cbn [forallb] in H. apply andb_true_iff in H as [H _]. clear - H. destruct c as [[] [] [] [] [] [] [] []]; try (split; reflexivity); discriminate H. }
  destruct Hc as [H1 H2]. rewrite H1, H2 in E. destruct (all_digits (c :: r)); [reflexivity|discriminate E].
Qed.

Lemma split_parts : forall st a m b t c e, length m = 5 -> length t = 12 -> length e = 3 ->
  dummy_split_filename (st ++ [a] ++ m ++ [b] ++ t ++ [c] ++ e) =
  do md <- (if isdigit m then do v <- py_int m; Ok (Some v) else Ok None);
  do td <- (if isdigit t then do v <- py_int t; Ok (Some v) else Ok None);
  Ok (st, md, td, e).
Proof.
  intros st a m b t c e Hm Ht He. unfold dummy_split_filename.
  replace (py_to (st ++ [a] ++ m ++ [b] ++ t ++ [c] ++ e) (-23)) with st by (symmetry; apply py_to_app; rewrite !app_length, Hm, Ht, He; cbn; lia).
  replace (py_slice (st ++ [a] ++ m ++ [b] ++ t ++ [c] ++ e) (-22) (-17)) with m
    by (symmetry; rewrite (app_assoc st [a]); apply py_slice_mid; rewrite !app_length, ?Hm, Ht, He; cbn; lia).
  replace (py_slice (st ++ [a] ++ m ++ [b] ++ t ++ [c] ++ e) (-16) (-4)) with t
    by (symmetry; rewrite (app_assoc m [b]), (app_assoc [a] (m ++ [b])), (app_assoc st); apply py_slice_mid; rewrite !app_length, ?Ht, He; cbn; lia).
  replace (py_from (st ++ [a] ++ m ++ [b] ++ t ++ [c] ++ e) (-3)) with e by (symmetry; rewrite !app_assoc; apply py_from_app; rewrite He; cbn; lia).
  reflexivity.
Qed.

Lemma cut_name : forall fn : str, 23 <= length fn -> exists st a m b t c e, fn = st ++ [a] ++ m ++ [b] ++ t ++ [c] ++ e /\ length m = 5 /\ length t = 12 /\ length e = 3.
Proof.
  intros fn L. pose proof (firstn_skipn (length fn - 23) fn) as E. assert (Lx : length (skipn (length fn - 23) fn) = 23) by (rewrite skipn_length; lia).
  set (x := skipn (length fn - 23) fn) in *. clearbody x. exists (firstn (length fn - 23) fn).
  do 23 (destruct x as [|? x]; [discriminate Lx|]). destruct x; [|discriminate Lx].
  match type of E with _ ++ ?a :: ?m1 :: ?m2 :: ?m3 :: ?m4 :: ?m5 :: ?b :: ?t1 :: ?t2 :: ?t3 :: ?t4 :: ?t5 :: ?t6 :: ?t7 :: ?t8 :: ?t9 :: ?t10 :: ?t11 :: ?t12 :: ?c :: ?e = _ =>
    exists a, [m1; m2; m3; m4; m5], b, [t1; t2; t3; t4; t5; t6; t7; t8; t9; t10; t11; t12], c, e end.
  split; [symmetry; exact E|]. repeat split.
Qed.

Theorem name_exact : forall ext fn stem, length ext = 3 -> 23 <= length fn ->
  (is_filename_correct ext fn stem = Ok true <->
   exists a m b t c, fn = stem ++ [a] ++ m ++ [b] ++ t ++ [c] ++ ext /\ length m = 5 /\ all_digits m = true /\ twelve_digits t).
Proof.
  intros ext fn stem Le L. split.
  - intros H. destruct (cut_name fn L) as (st & a & m & b & t & c & e & -> & Lm & Lt & Lx). unfold is_filename_correct in H. rewrite split_parts in H by assumption.
    exists a, m, b, t, c. destruct (isdigit m) eqn:Dm.
    2:{ cbn [rbind] in H. destruct (isdigit t); [destruct (py_int t); [|discriminate H]|]; cbn in H; rewrite ?andb_false_r in H; discriminate H. }
    destruct (py_int m) as [vm|] eqn:Im; [|discriminate H]. cbn [rbind] in H. destruct (isdigit t) eqn:Dt.
    2:{ cbn in H. rewrite ?andb_false_r in H. discriminate H. }
    destruct (py_int t) as [vt|] eqn:It; [|discriminate H]. cbn [rbind] in H. injection H as H. rewrite !andb_true_r in H. apply andb_true_iff in H as [H1 H2].
    apply str_eqb_eq in H1. apply str_eqb_eq in H2. subst st e. split; [reflexivity|]. split; [exact Lm|]. split; [exact (isdigit_int m vm Dm Im)|].
    split; [exact Lt|]. pose proof (isdigit_int t vt Dt It) as K. destruct t; [discriminate Lt|exact K].
  - intros (a & m & b & t & c & -> & Lm & Dm & [Lt Dt]). assert (Dt' : all_digits t = true) by (destruct t; [discriminate Lt|exact Dt]).
    unfold is_filename_correct. rewrite split_parts by assumption. rewrite (all_digits_isdigit m), (all_digits_isdigit t), !py_int_all_digits by assumption. cbn [rbind].
    assert (R : forall s, str_eqb s s = true) by (intros s; apply str_eqb_eq; reflexivity). rewrite !R. reflexivity.
Qed.
