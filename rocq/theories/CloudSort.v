(** Proofs about the order of triangles in clouds and about the depth of clouds. *)

From Coq Require Import ZArith Reals Bool Lra Lia List Permutation Sorting.Sorted.
From Verif Require Import Py Geom GeomSpec GeomProofs CloudProofs.
Import ListNotations.
Open Scope R_scope.

Lemma insert_by_sorted : forall key t l, StronglySorted (fun a b => key a <= key b) l ->
  StronglySorted (fun a b => key a <= key b) (insert_by key t l).
Proof.
  intros key t l H. induction H as [|u l S IH F]; cbn [insert_by]; [repeat constructor|].
  destruct (Rleb (key t) (key u)) eqn:E.
  - apply Rleb_true in E. constructor; [constructor; auto|]. constructor; auto. rewrite Forall_forall in *. intros x Hx. specialize (F x Hx). lra.
  - apply Rleb_false in E. constructor; auto. rewrite Forall_forall in *. intros x Hx.
    assert (X : In x (t :: l)).
    { clear - Hx. induction l as [|v l IHl]; cbn [insert_by] in Hx; auto. destruct (Rleb (key t) (key v)); auto.
      destruct Hx as [->|Hx]; [right; left; auto|]. destruct (IHl Hx) as [->|Hy]; [left; auto|right; right; auto]. }
    destruct X as [<-|X]; [lra|auto].
Qed.

Lemma sort_by_sorted : forall key l, StronglySorted (fun a b => key a <= key b) (sort_by key l).
Proof. intros key l. unfold sort_by. induction l; cbn [fold_right]; [constructor|]. apply insert_by_sorted; auto. Qed.

(** The extent of a box of points is the greatest difference of coordinates. *)
Lemma box_extents : forall ps b, box_of ps = Ok b -> ps <> [] ->
  let lo := fun j => match j with 0%nat => minx b | 1%nat => miny b | _ => minz b end in
  let hi := fun j => match j with 0%nat => maxx b | 1%nat => maxy b | _ => maxz b end in
  forall j, (forall p, In p ps -> lo j <= coord p j <= hi j) /\ (exists p, In p ps /\ coord p j = lo j) /\ (exists p, In p ps /\ coord p j = hi j).
Proof.
  intros ps b E H lo hi.
  destruct (py_min_ok (map vx ps) (map_nonnil _ _ _ _ H)) as (x & Ex & X1 & X2).
  destruct (py_min_ok (map vy ps) (map_nonnil _ _ _ _ H)) as (y & Ey & Y1 & Y2).
  destruct (py_min_ok (map vz ps) (map_nonnil _ _ _ _ H)) as (z & Ez & Z1 & Z2).
  destruct (py_max_ok (map vx ps) (map_nonnil _ _ _ _ H)) as (x' & Ex' & X1' & X2').
  destruct (py_max_ok (map vy ps) (map_nonnil _ _ _ _ H)) as (y' & Ey' & Y1' & Y2').
  destruct (py_max_ok (map vz ps) (map_nonnil _ _ _ _ H)) as (z' & Ez' & Z1' & Z2').
  unfold box_of in E. rewrite Ex, Ey, Ez, Ex', Ey', Ez' in E. cbn [rbind] in E. injection E as <-.
  assert (K : forall (g : vect -> R) m m', (forall v, In v (map g ps) -> m <= v) -> In m (map g ps) ->
    (forall v, In v (map g ps) -> v <= m') -> In m' (map g ps) ->
    (forall p, In p ps -> m <= g p <= m') /\ (exists p, In p ps /\ g p = m) /\ (exists p, In p ps /\ g p = m')).
  { intros g m m' A1 A2 B1 B2. split; [intros p Hp; split; [apply A1|apply B1]; apply in_map; auto|].
    apply in_map_iff in A2 as (p & <- & A2). apply in_map_iff in B2 as (q & <- & B2). split; eauto. }
  intros j. unfold lo, hi. destruct j as [|[|j]]; cbn [minx miny minz maxx maxy maxz coord]; apply K; auto.
Qed.

Theorem caller_sorted : forall l, (2 <= length l)%nat -> exists l' k, caller_list l = Ok l' /\ Permutation l' l /\
  longest l k /\ StronglySorted (fun t u => coord (centroid t) k <= coord (centroid u) k) l'.
Proof.
  intros l Hl. unfold caller_list. replace (Nat.ltb 1 (length l)) with true by (symmetry; apply Nat.ltb_lt; lia).
  unfold separate_triangles_list. replace (Nat.ltb 1 (length l)) with true by (symmetry; apply Nat.ltb_lt; lia). cbn [negb].
  assert (Hn : map centroid l <> []) by (destruct l; [cbn in Hl; lia|discriminate]).
  destruct (box_of_ok (map centroid l) Hn) as (b & Eb & _). rewrite Eb. cbn [rbind]. cbv zeta. cbn [fst snd].
  pose proof (box_extents _ b Eb Hn) as X. cbv zeta in X.
  set (lo := fun j => match j with 0%nat => minx b | 1%nat => miny b | _ => minz b end) in X.
  set (hi := fun j => match j with 0%nat => maxx b | 1%nat => maxy b | _ => maxz b end) in X.
  match goal with |- context [sorting_by_the_selected_axis l ?a] => set (k := a) end.
  exists (sorting_by_the_selected_axis l k), k. split; [reflexivity|]. split; [apply sort_by_perm|]. split; [|apply sort_by_sorted].
  assert (K : (k < 3)%nat /\ forall j, (j < 3)%nat -> hi j - lo j <= hi k - lo k).
  { unfold k. clear k X. set (m := Rmax _ _).
    assert (M : forall j, (j < 3)%nat -> hi j - lo j <= m).
    { intros j Hj. unfold m. destruct j as [|[|[|j]]]; [| | |lia]; cbn [hi lo].
      - eapply Rle_trans; [|apply Rmax_l]. apply Rmax_l.
      - eapply Rle_trans; [|apply Rmax_l]. apply Rmax_r.
      - apply Rmax_r. }
    destruct (Reqb (maxx b - minx b) m) eqn:E1; [apply Reqb_true in E1; split; [lia|]; intros j Hj; specialize (M j Hj); cbn [hi lo] in *; lra|].
    destruct (Reqb (maxy b - miny b) m) eqn:E2; [apply Reqb_true in E2; split; [lia|]; intros j Hj; specialize (M j Hj); cbn [hi lo] in *; lra|].
    apply Reqb_false in E1. apply Reqb_false in E2.
    assert (m = maxz b - minz b).
    { unfold m in *. unfold Rmax in *. repeat destruct (Rle_dec _ _); lra. }
    split; [lia|]. intros j Hj. specialize (M j Hj). cbn [hi lo] in *. lra. }
  destruct K as [K1 K2]. split; [exact K1|]. intros j t u Hj Ht Hu. specialize (K2 j Hj).
  destruct (X j) as (X1 & _). pose proof (X1 (centroid t) (in_map centroid _ _ Ht)). pose proof (X1 (centroid u) (in_map centroid _ _ Hu)).
  destruct (X k) as (_ & (p & Hp & Ep) & (q & Hq & Eq)). apply in_map_iff in Hp as (u' & <- & Hu'). apply in_map_iff in Hq as (t' & <- & Ht').
  exists t', u'. split; auto. split; auto. rewrite Ep, Eq. lra.
Qed.

Lemma build_depth : forall fuel l c, build_cloud fuel l = Ok c -> depth c = Nat.log2_up (length l).
Proof.
  induction fuel as [|fuel IH]; intros l c E; cbn [build_cloud] in E.
  - destruct (box_of (flat_map points l)); [|discriminate]. cbn [rbind] in E. destruct (Nat.ltb_spec 1 (length l)); [discriminate|].
    injection E as <-. cbn [depth]. rewrite Nat.log2_up_eqn0 by lia. reflexivity.
  - destruct (box_of (flat_map points l)); [|discriminate]. cbn [rbind] in E. destruct (Nat.ltb_spec 1 (length l)) as [H|H].
    + destruct (separate_ok l H) as (l' & u & v & Es & P & -> & Lu). rewrite Es in E. cbn [rbind fst snd] in E.
      destruct (build_cloud fuel u) as [c1|] eqn:E1; [|discriminate]. cbn [rbind] in E.
      destruct (build_cloud fuel v) as [c2|] eqn:E2; [|discriminate]. cbn [rbind] in E. injection E as <-.
      cbn [depth]. rewrite (IH _ _ E1), (IH _ _ E2). pose proof (Permutation_length P) as L. rewrite app_length in L.
      set (n := length l) in *. pose proof (Nat.div_mod n 2 ltac:(lia)) as D. pose proof (Nat.mod_upper_bound n 2 ltac:(lia)) as B.
      rewrite <- Lu in D.
      assert (V : length v = length u \/ length v = S (length u)) by lia.
      assert (Q : (Nat.log2_up (length u) <= Nat.log2_up (length v))%nat) by (apply Nat.log2_up_le_mono; lia).
      rewrite Nat.max_0_r, Nat.max_r by lia.
      destruct V as [V|V].
      * rewrite <- L, V. replace (length u + length u)%nat with (2 * length u)%nat by lia. rewrite Nat.log2_up_double by lia. reflexivity.
      * rewrite <- L, V. replace (length u + S (length u))%nat with (S (2 * length u)) by lia.
        unfold Nat.log2_up. destruct (Nat.compare_spec 1 (S (length u))) as [K|K|K]; [lia| |lia].
        destruct (Nat.compare_spec 1 (S (2 * length u))); [lia| |lia]. cbn [Nat.pred]. f_equal. rewrite Nat.log2_double by lia. reflexivity.
    + injection E as <-. cbn [depth]. rewrite Nat.log2_up_eqn0 by lia. reflexivity.
Qed.
