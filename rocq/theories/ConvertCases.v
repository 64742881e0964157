(** Concrete cases for converters. *)

From Coq Require Import ZArith Reals Bool Lra Lia List Permutation String.
From Verif Require Import Py PyLemmas Geom GeomSpec GeomProofs Drops DropsSpec Convert ConvertSpec ConvertProofs ConvertMore.
Import ListNotations.
Open Scope list_scope.

(** A KDTree oracle exists: the first nearest point. *)
Definition first_query (pts : list vect) (p : vect) : nat :=
  match argmin (map (fun q => vmod (vsub q p)) pts) with Ok i => i | Raise _ => 0%nat end.

Lemma first_query_ok : forall pts p, pts <> [] ->
  exists e, nth_error pts (first_query pts p) = Some e /\ nearest (fun x => x) pts p e.
Proof.
  intros pts p H. unfold first_query.
  destruct (DropsProofs.argmin_ok (map (fun q => vmod (vsub q p)) pts)) as (i & b & -> & Hb & Hm).
  { destruct pts; cbn; congruence. }
  rewrite nth_error_map in Hb. destruct (nth_error pts i) as [e|] eqn:E; [|discriminate]. cbn in Hb. injection Hb as <-.
  exists e. split; auto. split; [eapply nth_error_In; eauto|]. intros x Hx.
  destruct (In_nth_error _ _ Hx) as [k Hk]. apply (Hm k). rewrite nth_error_map, Hk. auto.
Qed.

(** Solution texts "0" ... "31" of a block of two by two cells with eight variables. *)
Definition texts (n : nat) : list str := map nat_str (seq 0 n).
Definition same (e : str) : res str := Ok e.

Lemma swapped : exists z row, lazurit_block same 3 3 [] (texts 32) = Ok z /\
  nth_error (lz_links z) 2 = Some (lower_half 3 0 1) /\ nth_error (lz_data z) 0 = Some row /\
  nth_error row 2 = Some (lit "1") /\ nth_error (texts 32) (cell_no 3 0 1) = Some (lit "2").
Proof. eexists _, _. repeat split; reflexivity. Qed.

Lemma swapped_wrong : exists neg zi zj g s z v i j k row,
  lazurit_block neg zi zj g s = Ok z /\ (forall e, In e s -> exists x, neg e = Ok x) /\
  List.length s = (8 * ((zi - 1) * (zj - 1)))%nat /\ (v < 8)%nat /\ (i < zi - 1)%nat /\ (j < zj - 1)%nat /\
  nth_error (lz_links z) k = Some (lower_half zi i j) /\ nth_error (lz_data z) v = Some row /\
  ~ carries neg v (nth_error s (v * ((zi - 1) * (zj - 1)) + cell_no zi i j)) (nth_error row k).
Proof.
  destruct swapped as (z & row & Ez & El & Ed & Er & Es).
  exists same, 3%nat, 3%nat, [], (texts 32), z, 0%nat, 0%nat, 1%nat, 2%nat, row.
  repeat (split; [solve [auto | lia | intros e _; unfold same; eauto]|]).
  change (0 * ((3 - 1) * (3 - 1)) + cell_no 3 0 1)%nat with (cell_no 3 0 1). rewrite Er, Es. cbn. intros Q. discriminate Q.
Qed.

Open Scope R_scope.

(** Two tables of two rows. *)
Definition tab1 : table := [[1; 10; 20]; [2; 11; 21]].
Definition tab2 : table := [[1; 100; 200]; [2; 110; 210]].
Lemma tabs_shaped : Forall (shaped 2 3) [tab1; tab2].
Proof. repeat constructor. Qed.

(** One zone moved by k times its distance from the mean; points on a line. *)
Definition line_points (n : nat) : vect := V3 (INR n) 0 0.
Lemma two_apart : apart [[0%nat; 1%nat]; [2%nat; 3%nat]].
Proof.
  split.
  - repeat constructor; try discriminate; cbn; intuition lia.
  - repeat constructor; cbn; intuition lia.
Qed.

(** A node of two zones: the zone that follows is not moved as a whole. *)
Lemma shared_node : forall Q, move_from_mean_point line_points [0%nat; 1%nat; 2%nat] [[0%nat; 1%nat]; [1%nat; 2%nat]] 1 = Ok Q ->
  vsub (Q 1%nat) (Q 0%nat) <> vsub (line_points 1) (line_points 0).
Proof.
  intros Q H. unfold move_from_mean_point in H. rewrite mean_p_ok in H by discriminate. cbn [rbind move_zones] in H.
  rewrite mean_p_ok in H by discriminate. cbn [rbind] in H. rewrite mean_p_ok in H by discriminate. cbn [rbind] in H.
  set (g := mean (map line_points [0%nat; 1%nat; 2%nat])) in *.
  set (s1 := vmul (vsub (mean (map line_points [0%nat; 1%nat])) g) 1) in *.
  set (P1 := shift_nodes line_points [0%nat; 1%nat] s1) in *.
  set (s2 := vmul (vsub (mean (map P1 [1%nat; 2%nat])) g) 1) in *.
  assert (D2 : NoDup [1%nat; 2%nat]) by (repeat constructor; cbn; intuition lia).
  assert (D1 : NoDup [0%nat; 1%nat]) by (repeat constructor; cbn; intuition lia).
  assert (Eg : vx g = 1) by (unfold g, mean, vsum, line_points; cbn; lra).
  assert (E1 : vx s1 = - / 2) by (unfold s1, vmul, vsub; cbn [vx]; rewrite Eg; unfold mean, vsum, line_points; cbn; lra).
  assert (A1 : vx (P1 1%nat) = / 2).
  { unfold P1. rewrite shift_in by (cbn; auto). unfold vadd; cbn [vx]. rewrite E1. unfold line_points; cbn. lra. }
  assert (A2 : vx (P1 2%nat) = 2).
  { unfold P1. rewrite shift_out by (cbn; intuition lia). unfold line_points; cbn. lra. }
  assert (E2 : vx s2 = / 4).
  { unfold s2, vmul, vsub; cbn [vx]. rewrite Eg. unfold mean, vsum, vmul; cbn [map fold_right vadd vx List.length INR]. rewrite A1, A2. lra. }
  clearbody s2. assert (HQ : Q = shift_nodes P1 [1%nat; 2%nat] s2) by congruence. rewrite HQ. rewrite (shift_in _ _ _ 1%nat) by (cbn; auto). rewrite (shift_out _ _ _ 0%nat) by (cbn; intuition lia).
  intros E. apply (f_equal vx) in E. unfold vsub, vadd in E; cbn [vx] in E. rewrite A1, E2 in E.
  assert (A0 : vx (P1 0%nat) = - / 2).
  { unfold P1. rewrite shift_in by (cbn; auto). unfold vadd; cbn [vx]. rewrite E1. unfold line_points; cbn. lra. }
  rewrite A0 in E. unfold line_points in E; cbn in E. lra.
Qed.
