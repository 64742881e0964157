(** Proofs about csv tables of different heights (C59). *)

From Coq Require Import Reals Lra Lia Bool List.
From Verif Require Import Py Convert ConvertSpec ConvertMore.
Import ListNotations.
Open Scope list_scope.
Open Scope nat_scope.

Lemma rmap_value : forall A B (f : A -> res B) l, (forall x, f x = Raise EValueError \/ exists y, f x = Ok y) ->
  rmap f l = Raise EValueError \/ exists m, rmap f l = Ok m /\ length m = length l.
Proof.
  intros A B f l H. induction l as [|x l IH]; cbn [rmap]; [right; exists []; split; reflexivity|].
  destruct (H x) as [E|[y E]]; rewrite E; cbn [rbind]; [left; reflexivity|].
  destruct IH as [E'|(m & E' & L)]; rewrite E'; cbn [rbind]; [left; reflexivity|]. right. exists (y :: m). split; [reflexivity|]. cbn. lia.
Qed.

Lemma row_add_value : forall a b, row_add a b = Raise EValueError \/ exists c, row_add a b = Ok c.
Proof. intros a b. unfold row_add. destruct (common (length a) (length b)); [right; eexists; reflexivity|left; reflexivity]. Qed.

(** Tables of the same height: the sum has this height, or rows do not fit. *)
Lemma table_add_value : forall a b, length a = length b -> table_add a b = Raise EValueError \/ exists c, table_add a b = Ok c /\ length c = length a.
Proof.
  intros a b E. unfold table_add. rewrite <- E, common_same. rewrite stretch_same. rewrite E at 1. rewrite E, stretch_same.
  destruct (rmap_value _ _ (fun x : list R * list R => row_add (fst x) (snd x)) (zip_with pair a b)) as [K|(c & K & L)].
  - intros x. apply row_add_value.
  - left. rewrite K. reflexivity.
  - right. exists c. split; [exact K|]. rewrite L. apply zip_length; [exact E|reflexivity].
Qed.

Lemma table_add_differ : forall a b, length a <> length b -> length a <> 1 -> length b <> 1 -> table_add a b = Raise EValueError.
Proof.
  intros a b N A B. unfold table_add, common. rewrite (proj2 (Nat.eqb_neq _ _) N), (proj2 (Nat.eqb_neq _ _) A), (proj2 (Nat.eqb_neq _ _) B). reflexivity.
Qed.

Lemma sum_tables_differ : forall l d x, length d <> 1 -> (forall t, In t l -> length t <> 1) -> In x l -> length x <> length d -> sum_tables d l = Raise EValueError.
Proof.
  induction l as [|t l IH]; intros d x D A I N; [destruct I|]. cbn [sum_tables].
  assert (Lt : length (other_cols t) = length t) by apply map_length.
  destruct (Nat.eq_dec (length d) (length t)) as [E|E].
  - destruct (table_add_value d (other_cols t)) as [K|(c & K & L)]; [congruence| |]; rewrite K; cbn [rbind]; [reflexivity|].
    destruct I as [<-|I]; [congruence|]. apply (IH c x); [congruence| |exact I|congruence]. intros u Iu. apply A. right. exact Iu.
  - rewrite (table_add_differ d (other_cols t)); [reflexivity|congruence|exact D|]. rewrite Lt. apply A. left. reflexivity.
Qed.

Theorem heights_differ : forall d l x, (forall t, In t (d :: l) -> length t <> 1) -> In x l -> length x <> length d -> total_csv (d :: l) = Raise EValueError.
Proof.
  intros d l x A I N. cbn [total_csv]. assert (Ld : length (other_cols d) = length d) by apply map_length.
  rewrite (sum_tables_differ l (other_cols d) x); [reflexivity| | |exact I|congruence].
  - rewrite Ld. apply A. left. reflexivity.
  - intros t It. apply A. right. exact It.
Qed.

(** A table of one row after tables of the same other height: its row is added to every row. *)
Open Scope R_scope.
Lemma one_row_main : exists d x out, length d = 3%nat /\ length x = 1%nat /\ total_csv [d; x] = Ok (Some out) /\ length out = 3%nat /\
  forall i, (i < 3)%nat -> exists u v, cell d i 1 = Some u /\ cell x 0 1 = Some v /\ cell out i 1 = Some (u + v).
Proof.
  exists [[1; 10]; [2; 20]; [3; 30]], [[1; 7]]. eexists. split; [reflexivity|]. split; [reflexivity|]. split; [reflexivity|]. split; [reflexivity|].
  intros i L. destruct i as [|[|[|i]]]; [eexists; eexists; split; [reflexivity|split; reflexivity]..|lia].
Qed.

(** The first table has one row and another one more: the column of times does not fit. *)
Lemma first_row_main : forall d l x n, length d = 1%nat -> In x l -> (forall t, In t l -> length t = n) -> n <> 1%nat -> total_csv (d :: l) = Raise EValueError.
Proof.
  intros d l x n D I A N. cbn [total_csv]. assert (Ld : length (other_cols d) = 1%nat) by (unfold other_cols; rewrite map_length; exact D).
  destruct l as [|t l]; [destruct I|]. assert (Lt : length (other_cols t) = n) by (unfold other_cols; rewrite map_length; apply A; left; reflexivity).
  assert (K : sum_tables (other_cols d) (t :: l) = Raise EValueError \/ exists s, sum_tables (other_cols d) (t :: l) = Ok s /\ length s = n).
  { cbn [sum_tables]. assert (T : table_add (other_cols d) (other_cols t) = Raise EValueError \/ exists c, table_add (other_cols d) (other_cols t) = Ok c /\ length c = n).
    { unfold table_add. rewrite Ld, Lt. unfold common. rewrite (proj2 (Nat.eqb_neq 1 n)) by congruence. cbn [Nat.eqb]. destruct (other_cols d) as [|r [|? ?]]; try discriminate Ld. cbn [stretch].
      destruct (rmap_value _ _ (fun x : list R * list R => row_add (fst x) (snd x)) (zip_with pair (repeat r n) (stretch n (other_cols t)))) as [K|(c & K & L)].
      - intros y. apply row_add_value.
      - left. rewrite K. reflexivity.
      - right. exists c. split; [exact K|]. rewrite L. apply zip_length; [apply repeat_length|]. rewrite <- Lt, stretch_same. reflexivity. }
    destruct T as [T|(c & T & Lc)]; rewrite T; cbn [rbind]; [left; reflexivity|].
    assert (Al : forall u, In u l -> length u = n) by (intros u Iu; apply A; right; exact Iu). clear - Lc Al. revert c Lc. induction l as [|u l IH]; intros c Lc; cbn [sum_tables].
    - right. exists c. split; [reflexivity|exact Lc].
    - destruct (table_add_value c (other_cols u)) as [K|(e & K & L)].
      + unfold other_cols. rewrite map_length, Lc. symmetry. apply Al. left. reflexivity.
      + rewrite K. left. reflexivity.
      + rewrite K. cbn [rbind]. apply IH; [intros v Iv; apply Al; right; exact Iv|congruence]. }
  destruct K as [K|(s & K & Ls)]; rewrite K; cbn [rbind]; [reflexivity|]. unfold hstack. unfold first_col. rewrite map_length, D, Ls.
  rewrite (proj2 (Nat.eqb_neq 1 n)) by congruence. reflexivity.
Qed.
