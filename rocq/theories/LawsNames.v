(** Proofs about names of intermediate files. *)

From Coq Require Import ZArith NArith Ascii String Bool Lia List.
From Verif Require Import Py PyLemmas TextLemmas UtilsProofs Laws LawsSpec.
Import ListNotations.
Open Scope list_scope.
Open Scope nat_scope.

Lemma name_pad : forall i, name_of_iteration i = pad0 3 (nat_str i).
Proof.
  intros i. unfold name_of_iteration, pad0. f_equal. set (k := List.length (nat_str i)).
  assert (K : 0 < k). { unfold k. pose proof (N_str_nonempty (N.of_nat i)). unfold nat_str. destruct (N_str (N.of_nat i)); [congruence|cbn; lia]. }
  clearbody k. unfold py_to. rewrite py_bound_neg by lia. cbn [List.length lit list_ascii_of_string].
  rewrite Z.opp_involutive, Nat2Z.id. destruct k as [|[|[|[|k]]]]; try lia; reflexivity.
Qed.

Theorem name_differs : forall base i j, iteration_file base i = iteration_file base j -> i = j.
Proof.
  intros base i j H. unfold iteration_file in H. apply app_inv_head in H. apply app_inv_head in H. apply app_inv_tail in H.
  rewrite !name_pad in H. apply (f_equal digits_val) in H. rewrite !pad0_val in H. lia.
Qed.

Lemma val_cons : forall c s, digits_val (c :: s) = (digit_val c * 10 ^ Z.of_nat (List.length s) + digits_val s)%Z.
Proof.
  intros c s. unfold digits_val. cbn [fold_left].
  assert (G : forall s a, fold_left (fun acc c => (acc * 10 + digit_val c)%Z) s a = (a * 10 ^ Z.of_nat (List.length s) + fold_left (fun acc c => (acc * 10 + digit_val c)%Z) s 0)%Z).
  { clear. induction s as [|d s IH]; intros a; [cbn; lia|]. cbn [fold_left]. rewrite IH. rewrite (IH (0 * 10 + digit_val d)%Z).
    cbn [List.length]. rewrite Nat2Z.inj_succ, Z.pow_succ_r by lia. ring. }
  rewrite (G s (0 * 10 + digit_val c)%Z). ring.
Qed.

Lemma val_bound : forall s, forallb is_digit s = true -> (0 <= digits_val s < 10 ^ Z.of_nat (List.length s))%Z.
Proof.
  induction s as [|c s IH]; intros H; [cbn; lia|]. cbn [forallb] in H. apply andb_true_iff in H as [H1 H2]. specialize (IH H2).
  rewrite val_cons. cbn [List.length]. rewrite Nat2Z.inj_succ, Z.pow_succ_r by lia.
  unfold is_digit in H1. apply andb_true_iff in H1 as [K1 K2]. apply Nat.leb_le in K1, K2. unfold digit_val. nia.
Qed.

Lemma val_order : forall a b, List.length a = List.length b -> forallb is_digit a = true -> forallb is_digit b = true ->
  (digits_val a < digits_val b)%Z -> exists p x y u v, a = p ++ x :: u /\ b = p ++ y :: v /\ nat_of_ascii x < nat_of_ascii y.
Proof.
  induction a as [|x a IH]; intros [|y b] L Ha Hb H; try discriminate L; [cbn in H; lia|].
  cbn [forallb] in Ha, Hb. apply andb_true_iff in Ha as [Hx Ha]. apply andb_true_iff in Hb as [Hy Hb].
  pose proof (val_bound _ Ha). pose proof (val_bound _ Hb). rewrite !val_cons in H.
  assert (L' : List.length a = List.length b) by (cbn in L; lia). rewrite L' in *.
  destruct (lt_eq_lt_dec (nat_of_ascii x) (nat_of_ascii y)) as [[K|K]|K].
  - exists [], x, y, a, b. auto.
  - assert (x = y). { rewrite <- (ascii_nat_embedding x), K. apply ascii_nat_embedding. } subst y.
    destruct (IH b) as (p & c & d & u & v & -> & -> & D); auto; [lia|]. exists (x :: p), c, d, u, v. auto.
  - exfalso. unfold digit_val in H. nia.
Qed.

Theorem name_order : forall base i j, i < j -> j <= 999 -> listed_before (iteration_file base i) (iteration_file base j).
Proof.
  intros base i j Hij Hj.
  assert (L : forall k, k <= 999 -> List.length (nat_str k) <= 3).
  { intros k Hk. apply nat_str_length_le; [|lia]. change (10 ^ N.of_nat 3)%N with 1000%N. lia. }
  assert (D : forall k, forallb is_digit (pad0 3 (nat_str k)) = true).
  { intros k. pose proof (pad0_all_digits 3 (nat_str k) (all_digits_N_str _)) as H. unfold all_digits in H.
    destruct (pad0 3 (nat_str k)); [discriminate H|exact H]. }
  destruct (val_order (pad0 3 (nat_str i)) (pad0 3 (nat_str j))) as (p & x & y & u & v & E1 & E2 & K).
  - rewrite !pad0_length; auto; apply L; lia.
  - apply D.
  - apply D.
  - rewrite !pad0_val. lia.
  - unfold iteration_file. rewrite !name_pad, E1, E2. exists (base ++ lit "_smoothing_" ++ p). right.
    exists x, y, (u ++ lit ".dat"), (v ++ lit ".dat"). rewrite <- !app_assoc. auto.
Qed.

Lemma late_before : listed_before (iteration_file (lit "taubin") 1000) (iteration_file (lit "taubin") 999).
Proof.
  exists (lit "taubin_smoothing_"). right. exists "1"%char, "9"%char, (lit "000.dat"), (lit "99.dat").
  split; [vm_compute; reflexivity|]. split; [vm_compute; reflexivity|]. vm_compute. lia.
Qed.
