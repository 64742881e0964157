(** Proofs about Lazurit blocks, tables and zones. *)

From Coq Require Import ZArith Reals Bool Lra Lia List Permutation Sorted String Ascii.
From Verif Require Import Py PyLemmas Geom GeomSpec GeomProofs Drops DropsSpec DropsMore Convert ConvertSpec ConvertProofs.
Import ListNotations.
Open Scope list_scope.
Open Scope nat_scope.

(** ** Links *)

Lemma nth_flat : forall A (f : nat -> list A) m n s i r, (forall k, List.length (f k) = m) -> i < n -> r < m ->
  nth_error (flat_map f (seq s n)) (i * m + r) = nth_error (f (s + i)) r.
Proof.
  intros A f m n. induction n as [|n IH]; intros s i r L Hi Hr; [lia|].
  cbn [seq flat_map]. destruct i as [|i].
  - cbn [Nat.mul Nat.add]. rewrite nth_error_app1 by (rewrite L; lia). rewrite Nat.add_0_r. auto.
  - rewrite nth_error_app2 by (rewrite L; nia). rewrite L.
    replace (S i * m + r - m) with (i * m + r) by nia. rewrite IH by (auto; lia). f_equal. f_equal. lia.
Qed.

Lemma flat_length : forall A (f : nat -> list A) m n s, (forall k, List.length (f k) = m) -> List.length (flat_map f (seq s n)) = n * m.
Proof. intros A f m n. induction n; intros s L; cbn; auto. rewrite app_length, L, IHn by auto. lia. Qed.

Definition two (zi i j : nat) : list (nat * nat * nat) := [lower_half zi i j; upper_half zi i j].

Lemma links_eq : forall zi zj, links zi zj = flat_map (fun i => flat_map (two zi i) (seq 0 (zj - 1))) (seq 0 (zi - 1)).
Proof.
  intros. unfold links. apply flat_map_ext. intros i. apply flat_map_ext. intros j.
  unfold two, lower_half, upper_half, node_no. rewrite !Nat.add_1_r. reflexivity.
Qed.

Lemma links_length : forall zi zj, List.length (links zi zj) = 2 * ((zi - 1) * (zj - 1)).
Proof.
  intros. rewrite links_eq. rewrite (flat_length _ _ ((zj - 1) * 2)).
  - lia.
  - intros k. apply flat_length. auto.
Qed.

Lemma links_at : forall zi zj i j, i < zi - 1 -> j < zj - 1 ->
  nth_error (links zi zj) (2 * (i * (zj - 1) + j)) = Some (lower_half zi i j) /\
  nth_error (links zi zj) (2 * (i * (zj - 1) + j) + 1) = Some (upper_half zi i j).
Proof.
  intros zi zj i j Hi Hj. rewrite links_eq.
  assert (L : forall k, List.length (flat_map (two zi k) (seq 0 (zj - 1))) = (zj - 1) * 2) by (intros; apply flat_length; auto).
  split.
  - replace (2 * (i * (zj - 1) + j)) with (i * ((zj - 1) * 2) + (j * 2 + 0)) by nia.
    rewrite (nth_flat _ _ ((zj - 1) * 2)) by (auto; nia).
    rewrite (nth_flat _ _ 2) by (auto; lia). reflexivity.
  - replace (2 * (i * (zj - 1) + j) + 1) with (i * ((zj - 1) * 2) + (j * 2 + 1)) by nia.
    rewrite (nth_flat _ _ ((zj - 1) * 2)) by (auto; nia).
    rewrite (nth_flat _ _ 2) by (auto; lia). reflexivity.
Qed.

Lemma links_inv : forall zi zj k t, nth_error (links zi zj) k = Some t ->
  exists i j, i < zi - 1 /\ j < zj - 1 /\
    ((k = 2 * (i * (zj - 1) + j) /\ t = lower_half zi i j) \/ (k = 2 * (i * (zj - 1) + j) + 1 /\ t = upper_half zi i j)).
Proof.
  intros zi zj k t H. assert (K : k < 2 * ((zi - 1) * (zj - 1))).
  { rewrite <- links_length. apply nth_error_Some. congruence. }
  assert (Hm : zj - 1 <> 0) by nia.
  set (m := zj - 1) in *. set (c := k / 2). set (i := c / m). set (j := c mod m).
  pose proof (Nat.div_mod k 2 ltac:(lia)) as E1. pose proof (Nat.mod_upper_bound k 2 ltac:(lia)).
  pose proof (Nat.div_mod c m Hm) as E2. pose proof (Nat.mod_upper_bound c m Hm) as Hj.
  fold c in E1. fold i in E2. fold j in E2, Hj.
  assert (Hi : i < zi - 1).
  { unfold i. apply Nat.div_lt_upper_bound; auto. nia. }
  exists i, j. split; [auto|]. split; [auto|].
  destruct (links_at zi zj i j Hi Hj) as [A B]. fold m in A, B.
  assert (Q : k mod 2 = 0 \/ k mod 2 = 1) by lia. destruct Q as [Q|Q].
  - left. assert (Ek : k = 2 * (i * m + j)) by nia. split; auto. rewrite Ek in H. congruence.
  - right. assert (Ek : k = 2 * (i * m + j) + 1) by nia. split; auto. rewrite Ek in H. congruence.
Qed.

Lemma node_inj : forall zi a b a' b', a < zi -> a' < zi -> node_no zi a b = node_no zi a' b' -> a = a' /\ b = b'.
Proof.
  unfold node_no. intros zi a b a' b' Ha Ha' E.
  assert (b = b'). { destruct (Nat.lt_trichotomy b b') as [Q|[Q|Q]]; auto; exfalso; nia. }
  subst. split; auto. lia.
Qed.

Ltac splitpair H := injection H; clear H; intros; subst.

Lemma edge_cell : forall zi i j e p q, i < zi - 1 -> e < 2 ->
  In (p, q) (edges3 (if Nat.eqb e 0 then lower_half zi i j else upper_half zi i j)) ->
  exists a b a' b', p = node_no zi a b /\ q = node_no zi a' b' /\ a < zi /\ a' < zi /\
    ((e = 0 /\ a = i /\ b = j /\ a' = i /\ b' = j + 1) \/ (e = 0 /\ a = i /\ b = j + 1 /\ a' = i + 1 /\ b' = j + 1) \/
     (e = 0 /\ a = i + 1 /\ b = j + 1 /\ a' = i /\ b' = j) \/ (e = 1 /\ a = i /\ b = j /\ a' = i + 1 /\ b' = j + 1) \/
     (e = 1 /\ a = i + 1 /\ b = j + 1 /\ a' = i + 1 /\ b' = j) \/ (e = 1 /\ a = i + 1 /\ b = j /\ a' = i /\ b' = j)).
Proof.
  intros zi i j e p q Hi He H. assert (e = 0 \/ e = 1) as [->| ->] by lia; cbn [Nat.eqb] in H;
  unfold lower_half, upper_half, edges3 in H; destruct H as [H|[H|[H|[]]]]; injection H as <- <-;
  eexists _, _, _, _; (split; [reflexivity|]); (split; [reflexivity|]); lia.
Qed.

Theorem edge_once : forall zi zj k1 k2 t1 t2 e,
  nth_error (links zi zj) k1 = Some t1 -> nth_error (links zi zj) k2 = Some t2 ->
  In e (edges3 t1) -> In e (edges3 t2) -> k1 = k2.
Proof.
  intros zi zj k1 k2 t1 t2 [p q] H1 H2 I1 I2.
  assert (G : forall k t, nth_error (links zi zj) k = Some t -> In (p, q) (edges3 t) ->
    exists i j e, i < zi - 1 /\ e < 2 /\ k = 2 * (i * (zj - 1) + j) + e /\
      In (p, q) (edges3 (if Nat.eqb e 0 then lower_half zi i j else upper_half zi i j))).
  { intros k t Hk Ht. destruct (links_inv _ _ _ _ Hk) as (i & j & Hi & Hj & [[-> ->]|[-> ->]]).
    - exists i, j, 0. repeat split; auto; lia.
    - exists i, j, 1. repeat split; auto; lia. }
  destruct (G _ _ H1 I1) as (i & j & e & Hi & He & -> & J1). destruct (G _ _ H2 I2) as (i' & j' & e' & Hi' & He' & -> & J2).
  destruct (edge_cell _ _ _ _ _ _ Hi He J1) as (a & b & c & d & -> & -> & La & Lc & C1).
  destruct (edge_cell _ _ _ _ _ _ Hi' He' J2) as (a' & b' & c' & d' & Ea & Ec & La' & Lc' & C2).
  apply node_inj in Ea as [<- <-]; auto. apply node_inj in Ec as [<- <-]; auto.
  assert (i = i' /\ j = j' /\ e = e') as (-> & -> & ->) by lia. auto.
Qed.

Theorem links_proper : forall zi zj k t, nth_error (links zi zj) k = Some t ->
  proper t /\ Forall (fun n => 1 <= n <= zi * zj) (corners3 t).
Proof.
  intros zi zj k t H. destruct (links_inv _ _ _ _ H) as (i & j & Hi & Hj & [[_ ->]|[_ ->]]).
  - unfold lower_half, proper, corners3, node_no. split; [split; [nia|split; nia]|].
    constructor; [nia|]. constructor; [nia|]. constructor; [nia|]. constructor.
  - unfold upper_half, proper, corners3, node_no. split; [split; [nia|split; nia]|].
    constructor; [nia|]. constructor; [nia|]. constructor; [nia|]. constructor.
Qed.

Lemma edges3_some : forall t, exists e, In e (edges3 t).
Proof. intros [[a b] c]. exists (a, b). left; auto. Qed.

Lemma links_inj : forall zi zj k1 k2 t, nth_error (links zi zj) k1 = Some t -> nth_error (links zi zj) k2 = Some t -> k1 = k2.
Proof. intros. destruct (edges3_some t) as [e He]. eapply edge_once; eauto. Qed.

(** ** Data of cells *)

Lemma nth_nil : forall A n, nth_error (@nil A) n = None.
Proof. intros A [|n]; auto. Qed.

Lemma nth_double : forall l c e, e < 2 -> nth_error (double_list l) (2 * c + e) = nth_error l c.
Proof.
  induction l as [|x r IH]; intros c e He.
  - change (double_list []) with (@nil str). rewrite !nth_nil. auto.
  - destruct c as [|c].
    + assert (e = 0 \/ e = 1) as [->| ->] by lia; reflexivity.
    + replace (2 * S c + e) with (S (S (2 * c + e))) by lia. cbn [double_list flat_map app nth_error]. apply IH; auto.
Qed.

Lemma nth_double_neg : forall neg l out, double_and_neg_list neg l = Ok out -> forall c e, e < 2 ->
  match nth_error l c with
  | None => nth_error out (2 * c + e) = None
  | Some x => exists y, neg x = Ok y /\ nth_error out (2 * c + e) = Some y
  end.
Proof.
  intros neg l. unfold double_and_neg_list.
  induction l as [|x r IH]; intros out H c e He.
  - cbn in H. injection H as <-. rewrite !nth_nil. auto.
  - cbn [rmap] in H. destruct (neg x) as [y|] eqn:En; cbn [rbind] in H; [|discriminate].
    destruct (rmap (fun e => do x <- neg e; do y <- neg e; Ok [x; y]) r) as [ll|] eqn:El; cbn [rbind] in H; [|discriminate].
    injection H as <-. specialize (IH (List.concat ll) eq_refl). destruct c as [|c].
    + cbn [nth_error]. exists y. split; auto. assert (e = 0 \/ e = 1) as [->| ->] by lia; reflexivity.
    + replace (2 * S c + e) with (S (S (2 * c + e))) by lia. cbn [nth_error List.concat app]. apply IH; auto.
Qed.

Lemma nth_firstn_lt : forall A (l : list A) n c, c < n -> nth_error (firstn n l) c = nth_error l c.
Proof. induction l; intros [|n] [|c] H; cbn; auto; try lia. apply IHl; lia. Qed.

Lemma nth_skipn_add : forall A (l : list A) n c, nth_error (skipn n l) c = nth_error l (n + c).
Proof. induction l; intros [|n] c; cbn; auto. destruct c; auto. Qed.

Lemma nth_slice : forall A (l : list A) a b c, c < b - a -> nth_error (slice l a b) c = nth_error l (a + c).
Proof. intros. unfold slice. rewrite nth_firstn_lt by auto. apply nth_skipn_add. Qed.

Lemma carries_neg : forall neg v l out a b c e, 5 <= v -> double_and_neg_list neg (slice l a b) = Ok out -> c < b - a -> e < 2 ->
  carries neg v (nth_error l (a + c)) (nth_error out (2 * c + e)).
Proof.
  intros neg v l out a b c e Hv H Hc He. pose proof (nth_double_neg _ _ _ H c e He) as Q. rewrite nth_slice in Q by auto.
  unfold carries. destruct (nth_error l (a + c)); auto. rewrite (proj2 (Nat.ltb_ge v 5)) by auto. auto.
Qed.

Lemma carries_same : forall neg v l a b c e, v < 5 -> c < b - a -> e < 2 ->
  carries neg v (nth_error l (a + c)) (nth_error (double_list (slice l a b)) (2 * c + e)).
Proof.
  intros. rewrite nth_double by auto. rewrite nth_slice by auto. unfold carries.
  destruct (nth_error l (a + c)); auto. rewrite (proj2 (Nat.ltb_lt v 5)) by auto. auto.
Qed.

(** Face number [2c] and [2c+1] get the value number [c] of the block of a variable. *)
Theorem block_data : forall neg zi zj g s z, lazurit_block neg zi zj g s = Ok z ->
  forall v c e, v < 8 -> c < (zi - 1) * (zj - 1) -> e < 2 ->
  exists row, nth_error (lz_data z) v = Some row /\
    carries neg v (nth_error s (v * ((zi - 1) * (zj - 1)) + c)) (nth_error row (2 * c + e)).
Proof.
  intros neg zi zj g s z H v c e Hv Hc He. unfold lazurit_block in H. set (h := (zi - 1) * (zj - 1)) in *.
  destruct (double_and_neg_list neg (slice s (5 * h) (6 * h))) as [d5|] eqn:E5; cbn [rbind] in H; [|discriminate].
  destruct (double_and_neg_list neg (slice s (6 * h) (7 * h))) as [d6|] eqn:E6; cbn [rbind] in H; [|discriminate].
  destruct (double_and_neg_list neg (slice s (7 * h) (8 * h))) as [d7|] eqn:E7; cbn [rbind] in H; [|discriminate].
  injection H as <-. cbn [lz_data].
  assert (V : v = 0 \/ v = 1 \/ v = 2 \/ v = 3 \/ v = 4 \/ v = 5 \/ v = 6 \/ v = 7) by lia.
  destruct V as [->|[->|[->|[->|[->|[->|[->| ->]]]]]]]; cbn [nth_error]; eexists; (split; [reflexivity|]);
    solve [rewrite ?Nat.mul_1_l, ?Nat.mul_0_l; apply carries_same; lia | eapply carries_neg; [lia|eassumption|lia|lia]].
Qed.

Lemma block_shape : forall neg zi zj g s z, lazurit_block neg zi zj g s = Ok z ->
  lz_nodes z = zi * zj /\ lz_elements z = 2 * ((zi - 1) * (zj - 1)) /\ lz_links z = links zi zj /\
  lz_coords z = [slice g 0 (zi * zj); slice g (zi * zj) (2 * (zi * zj)); slice g (2 * (zi * zj)) (3 * (zi * zj))].
Proof.
  intros neg zi zj g s z H. unfold lazurit_block in H. set (h := (zi - 1) * (zj - 1)) in *.
  destruct (double_and_neg_list neg (slice s (5 * h) (6 * h))) as [d5|] eqn:E5; cbn [rbind] in H; [|discriminate].
  destruct (double_and_neg_list neg (slice s (6 * h) (7 * h))) as [d6|] eqn:E6; cbn [rbind] in H; [|discriminate].
  destruct (double_and_neg_list neg (slice s (7 * h) (8 * h))) as [d7|] eqn:E7; cbn [rbind] in H; [|discriminate].
  injection H as <-. cbn [lz_nodes lz_elements lz_links lz_coords]. rewrite Nat.mul_1_r. auto.
Qed.

Lemma neg_total : forall neg l, (forall e, In e l -> exists x, neg e = Ok x) -> exists out, double_and_neg_list neg l = Ok out.
Proof.
  intros neg l H. unfold double_and_neg_list.
  destruct (rmap_forall2 _ _ (fun e => do x <- neg e; do y <- neg e; Ok [x; y]) (fun _ _ => True) l) as (ll & E & _).
  - intros x Hx. destruct (H x Hx) as [y Ey]. rewrite Ey. cbn. eauto.
  - rewrite E. cbn. eauto.
Qed.

Lemma In_slice : forall A (l : list A) a b x, In x (slice l a b) -> In x l.
Proof. intros A l a b x H. unfold slice in H. rewrite <- (firstn_skipn a l). apply in_or_app. right.
  rewrite <- (firstn_skipn (b - a) (skipn a l)). apply in_or_app. auto. Qed.

Theorem block_runs : forall neg zi zj g s, (forall e, In e s -> exists x, neg e = Ok x) ->
  exists z, lazurit_block neg zi zj g s = Ok z.
Proof.
  intros neg zi zj g s H. unfold lazurit_block. set (h := (zi - 1) * (zj - 1)).
  assert (G : forall a b, exists out, double_and_neg_list neg (slice s a b) = Ok out)
    by (intros; apply neg_total; intros e He; apply H; eapply In_slice; eauto).
  destruct (G (5 * h) (6 * h)) as [? ->], (G (6 * h) (7 * h)) as [? ->], (G (7 * h) (8 * h)) as [? ->]. cbn [rbind]. eauto.
Qed.

Theorem block_narrow : forall neg zi zj g s z, zi <= 2 \/ zj <= 2 -> lazurit_block neg zi zj g s = Ok z ->
  forall v i j k, v < 8 -> i < zi - 1 -> j < zj - 1 ->
  (nth_error (lz_links z) k = Some (lower_half zi i j) \/ nth_error (lz_links z) k = Some (upper_half zi i j)) ->
  exists row, nth_error (lz_data z) v = Some row /\
    carries neg v (nth_error s (v * ((zi - 1) * (zj - 1)) + cell_no zi i j)) (nth_error row k).
Proof.
  intros neg zi zj g s z Hz H v i j k Hv Hi Hj Hk. destruct (block_shape _ _ _ _ _ _ H) as (_ & _ & L & _). rewrite L in Hk.
  destruct (links_at zi zj i j Hi Hj) as [A B].
  assert (C : cell_no zi i j = i * (zj - 1) + j) by (unfold cell_no; destruct Hz; nia).
  assert (exists e, e < 2 /\ k = 2 * cell_no zi i j + e) as (e & He & ->).
  { rewrite C. destruct Hk as [Hk|Hk].
    - exists 0. split; [lia|]. rewrite Nat.add_0_r. eapply links_inj; eauto.
    - exists 1. split; [lia|]. eapply links_inj; eauto. }
  apply (block_data neg zi zj g s z); auto. rewrite C. nia.
Qed.

(** ** Pairs of files *)

Lemma leb_refl : forall a, str_leb a a = true.
Proof. induction a; cbn [str_leb]; auto. rewrite Nat.ltb_irrefl, Nat.eqb_refl. auto. Qed.

Lemma leb_total : forall a b, str_leb a b = true \/ str_leb b a = true.
Proof.
  induction a as [|x a IH]; intros [|y b]; cbn [str_leb]; auto.
  destruct (Nat.ltb_spec (nat_of_ascii x) (nat_of_ascii y)); auto.
  destruct (Nat.ltb_spec (nat_of_ascii y) (nat_of_ascii x)); auto.
  rewrite !(proj2 (Nat.eqb_eq _ _)) by lia. auto.
Qed.

Lemma ascii_inj : forall x y, nat_of_ascii x = nat_of_ascii y -> x = y.
Proof. intros x y H. rewrite <- (ascii_nat_embedding x), <- (ascii_nat_embedding y). congruence. Qed.

Lemma leb_anti : forall a b, str_leb a b = true -> str_leb b a = true -> a = b.
Proof.
  induction a as [|x a IH]; intros [|y b]; cbn [str_leb]; intros H1 H2; try discriminate; auto.
  destruct (Nat.ltb_spec (nat_of_ascii x) (nat_of_ascii y)), (Nat.ltb_spec (nat_of_ascii y) (nat_of_ascii x));
    try lia; try (rewrite (proj2 (Nat.eqb_neq _ _)) in H1 by lia; discriminate);
    try (rewrite (proj2 (Nat.eqb_neq _ _)) in H2 by lia; discriminate).
  rewrite (proj2 (Nat.eqb_eq _ _)) in H1 by lia. rewrite (proj2 (Nat.eqb_eq _ _)) in H2 by lia. f_equal; [apply ascii_inj; lia|auto].
Qed.

Lemma leb_trans : forall a b c, str_leb a b = true -> str_leb b c = true -> str_leb a c = true.
Proof.
  induction a as [|x a IH]; intros [|y b] [|z c]; cbn [str_leb]; intros H1 H2; try discriminate; auto.
  destruct (Nat.ltb_spec (nat_of_ascii x) (nat_of_ascii y)).
  - destruct (Nat.ltb_spec (nat_of_ascii y) (nat_of_ascii z)).
    + rewrite (proj2 (Nat.ltb_lt _ _)) by lia. auto.
    + destruct (Nat.eqb_spec (nat_of_ascii y) (nat_of_ascii z)); [|discriminate].
      rewrite (proj2 (Nat.ltb_lt _ _)) by lia. auto.
  - destruct (Nat.eqb_spec (nat_of_ascii x) (nat_of_ascii y)); [|discriminate]. rewrite e.
    destruct (Nat.ltb_spec (nat_of_ascii y) (nat_of_ascii z)); auto.
    destruct (Nat.eqb_spec (nat_of_ascii y) (nat_of_ascii z)); [|discriminate]. eauto.
Qed.

Definition sle (a b : str) : Prop := str_leb a b = true.

Lemma insert_str_perm : forall x l, Permutation (insert_str x l) (x :: l).
Proof. induction l as [|y r IH]; cbn; auto. destruct (str_leb x y); auto. rewrite IH. constructor. Qed.

Lemma sort_str_perm : forall l, Permutation (sort_str l) l.
Proof. induction l; cbn; auto. rewrite insert_str_perm. auto. Qed.

Lemma insert_str_sorted : forall x l, StronglySorted sle l -> StronglySorted sle (insert_str x l).
Proof.
  induction l as [|y r IH]; intros H; cbn.
  - repeat constructor.
  - apply StronglySorted_inv in H as [H F]. destruct (str_leb x y) eqn:E.
    + constructor; [constructor; auto|]. constructor; auto. eapply Forall_impl; [|exact F]. intros z Hz. eapply leb_trans; eauto.
    + constructor; auto. apply Forall_forall. intros z Hz. apply (Permutation_in _ (insert_str_perm x r)) in Hz.
      destruct Hz as [<-|Hz].
      * destruct (leb_total x y) as [Q|Q]; [congruence|auto].
      * rewrite Forall_forall in F. auto.
Qed.

Lemma sort_str_sorted : forall l, StronglySorted sle (sort_str l).
Proof. induction l; cbn; [constructor|]. apply insert_str_sorted; auto. Qed.

Lemma sorted_unique : forall l l', StronglySorted sle l -> StronglySorted sle l' -> Permutation l l' -> l = l'.
Proof.
  induction l as [|x r IH]; intros l' H H' P.
  - apply Permutation_nil in P. auto.
  - destruct l' as [|y r']; [apply Permutation_sym, Permutation_nil in P; discriminate|].
    apply StronglySorted_inv in H as [H F]. apply StronglySorted_inv in H' as [H' F'].
    rewrite Forall_forall in F, F'.
    assert (x = y).
    { assert (In x (y :: r')) as [->|Hx] by (apply (Permutation_in _ P); left; auto); auto.
      assert (In y (x :: r)) as [->|Hy] by (apply (Permutation_in _ (Permutation_sym P)); left; auto); auto.
      apply leb_anti; [apply F; auto|apply F'; auto]. }
    subst y. f_equal. apply IH; auto. eapply Permutation_cons_inv; eauto.
Qed.

Lemma leb_app : forall p a b, str_leb (p ++ a) (p ++ b) = str_leb a b.
Proof. induction p; intros; cbn [str_leb app]; auto. rewrite Nat.ltb_irrefl, Nat.eqb_refl. auto. Qed.

Lemma sorted_map : forall p l, StronglySorted sle l -> StronglySorted sle (map (fun b => p ++ b) l).
Proof.
  induction l as [|x r IH]; intros H; cbn; [constructor|]. apply StronglySorted_inv in H as [H F]. constructor; auto.
  apply Forall_map. eapply Forall_impl; [|exact F]. intros y Hy. unfold sle. rewrite leb_app. exact Hy.
Qed.

Lemma sorted_app : forall l m, StronglySorted sle l -> StronglySorted sle m -> (forall x y, In x l -> In y m -> sle x y) ->
  StronglySorted sle (l ++ m).
Proof.
  induction l as [|x r IH]; intros m H Hm C; cbn; auto. apply StronglySorted_inv in H as [H F]. constructor.
  - apply IH; auto. intros; apply C; auto. right; auto.
  - apply Forall_app. split; auto. apply Forall_forall. intros y Hy. apply C; auto. left; auto.
Qed.

Lemma grid_before : forall a b, sle (grid_name a) (solution_name b).
Proof. intros. reflexivity. Qed.

Lemma firstn_known : forall (p b : str) n, n = List.length p -> firstn n (p ++ b) = p.
Proof. intros p b n ->. apply firstn_app_exact. Qed.
Lemma skipn_known : forall (p b : str) n, n = List.length p -> skipn n (p ++ b) = b.
Proof. intros p b n ->. apply skipn_app_exact. Qed.

Lemma pair_ok_iff : forall g s, pair_ok g s = true <-> exists b, g = grid_name b /\ s = solution_name b.
Proof.
  intros g s. unfold pair_ok, grid_name, solution_name. split.
  - intros H. apply andb_prop in H as [H H3]. apply andb_prop in H as [H1 H2]. unfold str_eqb in *.
    destruct (str_dec (firstn 14 g) (lit "TEC_WALL_Grid_")) as [E1|]; [|discriminate].
    destruct (str_dec (firstn 18 s) (lit "TEC_WALL_Solution_")) as [E2|]; [|discriminate].
    destruct (str_dec (skipn 14 g) (skipn 18 s)) as [E3|]; [|discriminate].
    exists (skipn 14 g). rewrite <- E1, <- E2. split; [symmetry; apply firstn_skipn|]. rewrite E3. symmetry; apply firstn_skipn.
  - intros (b & -> & ->). rewrite !firstn_known, !skipn_known by reflexivity. unfold str_eqb.
    destruct (str_dec (lit "TEC_WALL_Grid_") (lit "TEC_WALL_Grid_")); [|congruence].
    destruct (str_dec (lit "TEC_WALL_Solution_") (lit "TEC_WALL_Solution_")); [|congruence].
    destruct (str_dec b b); [auto|congruence].
Qed.

Lemma py_get_nth : forall A (l : list A) i x, nth_error l i = Some x -> py_get l (Z.of_nat i) = Ok x.
Proof.
  intros A l i x H. unfold py_get, py_index. assert (i < List.length l) by (apply nth_error_Some; congruence).
  replace (0 <=? Z.of_nat i)%Z with true by (symmetry; apply Z.leb_le; lia).
  replace (Z.of_nat i <? Z.of_nat (List.length l))%Z with true by (symmetry; apply Z.ltb_lt; lia).
  rewrite ?Nat2Z.id. cbn. rewrite ?Nat2Z.id, H. auto.
Qed.

Lemma py_get_nth_inv : forall A (l : list A) i x, py_get l (Z.of_nat i) = Ok x -> nth_error l i = Some x.
Proof.
  intros A l i x H. destruct (nth_error l i) as [y|] eqn:E.
  - rewrite (py_get_nth _ _ _ _ E) in H. congruence.
  - apply nth_error_None in E. unfold py_get, py_index in H.
    replace (0 <=? Z.of_nat i)%Z with true in H by (symmetry; apply Z.leb_le; lia).
    replace (Z.of_nat i <? Z.of_nat (List.length l))%Z with false in H by (symmetry; apply Z.ltb_ge; lia).
    cbn in H. discriminate.
Qed.

Lemma pairs_from_all : forall bs pre, let h := List.length pre + List.length bs in
  forall l, l = map grid_name (pre ++ bs) ++ map solution_name (pre ++ bs) ->
  pairs_from (List.length bs) (List.length pre) l = Ok (map (fun b => (grid_name b, solution_name b)) bs).
Proof.
  induction bs as [|b r IH]; intros pre h l ->; [reflexivity|]. cbn [List.length pairs_from].
  set (bs := pre ++ b :: r). set (l := map grid_name bs ++ map solution_name bs).
  assert (Lh : List.length l / 2 = List.length bs).
  { unfold l. rewrite app_length, !map_length. replace (List.length bs + List.length bs) with (List.length bs * 2) by lia. apply Nat.div_mul. lia. }
  assert (Eb : nth_error bs (List.length pre) = Some b) by (unfold bs; rewrite nth_error_app2, Nat.sub_diag by lia; auto).
  assert (Hb : List.length pre < List.length bs) by (apply nth_error_Some; congruence).
  rewrite (py_get_nth _ l _ (grid_name b)).
  2: { unfold l. rewrite nth_error_app1 by (rewrite map_length; auto). rewrite nth_error_map, Eb. auto. }
  cbn [rbind]. rewrite (py_get_nth _ l _ (solution_name b)).
  2: { rewrite Lh. unfold l. rewrite nth_error_app2 by (rewrite map_length; lia). rewrite map_length.
       replace (List.length pre + List.length bs - List.length bs) with (List.length pre) by lia. rewrite nth_error_map, Eb. auto. }
  cbn [rbind]. rewrite (proj2 (pair_ok_iff _ _)) by eauto.
  replace (S (List.length pre)) with (List.length (pre ++ [b])) by (rewrite app_length; cbn; lia).
  rewrite (IH (pre ++ [b])); [reflexivity|]. unfold l, bs. rewrite <- app_assoc. reflexivity.
Qed.

Theorem file_pairs_all : forall bs, file_pairs (map grid_name bs ++ map solution_name bs) =
  Ok (map (fun b => (grid_name b, solution_name b)) bs).
Proof.
  intros bs. unfold file_pairs. rewrite app_length, !map_length.
  replace (List.length bs + List.length bs) with (List.length bs * 2) by lia.
  rewrite Nat.mod_mul, Nat.div_mul by lia. cbn [Nat.eqb]. apply (pairs_from_all bs []). reflexivity.
Qed.

Theorem directory_pairs_all : forall bs listing,
  Permutation (filter (contains (lit ".TEC")) listing) (map grid_name bs ++ map solution_name bs) ->
  exists bs', Permutation bs' bs /\ directory_pairs listing = Ok (map (fun b => (grid_name b, solution_name b)) bs').
Proof.
  intros bs listing H. exists (sort_str bs). split; [apply sort_str_perm|]. unfold directory_pairs.
  replace (sort_str (filter (contains (lit ".TEC")) listing)) with
    (map grid_name (sort_str bs) ++ map solution_name (sort_str bs)); [apply file_pairs_all|].
  apply sorted_unique.
  - apply sorted_app; try (apply sorted_map; apply sort_str_sorted). intros x y Hx Hy.
    apply in_map_iff in Hx as (a & <- & _). apply in_map_iff in Hy as (b & <- & _). apply grid_before.
  - apply sort_str_sorted.
  - apply (Permutation_trans (l' := map grid_name bs ++ map solution_name bs)).
    + apply Permutation_app; apply Permutation_map; apply sort_str_perm.
    + apply Permutation_sym. eapply Permutation_trans; [apply sort_str_perm|exact H].
Qed.

Lemma pairs_from_inv : forall k fi l ps, pairs_from k fi l = Ok ps ->
  List.length ps = k /\ forall i p, nth_error ps i = Some p ->
    nth_error l (fi + i) = Some (fst p) /\ nth_error l (fi + i + List.length l / 2) = Some (snd p) /\
    exists b, fst p = grid_name b /\ snd p = solution_name b.
Proof.
  induction k as [|k IH]; intros fi l ps H; cbn [pairs_from] in H.
  - injection H as <-. split; auto. intros [|i] p Hp; discriminate.
  - destruct (py_get l (Z.of_nat fi)) as [g|] eqn:Eg; cbn [rbind] in H; [|discriminate].
    destruct (py_get l (Z.of_nat (fi + List.length l / 2))) as [s|] eqn:Es; cbn [rbind] in H; [|discriminate].
    destruct (pair_ok g s) eqn:Ep; [|discriminate].
    destruct (pairs_from k (S fi) l) as [r|] eqn:Er; cbn [rbind] in H; [|discriminate]. injection H as <-.
    destruct (IH _ _ _ Er) as [L G]. split; [cbn; auto|]. intros [|i] p Hp; cbn in Hp.
    + injection Hp as <-. cbn. rewrite Nat.add_0_r. apply py_get_nth_inv in Eg, Es. apply pair_ok_iff in Ep. auto.
    + destruct (G _ _ Hp) as (A & B & C). replace (fi + S i) with (S fi + i) by lia. auto.
Qed.

Lemma nth_ext' : forall A (l m : list A), List.length l = List.length m ->
  (forall i x, nth_error l i = Some x -> nth_error m i = Some x) -> l = m.
Proof.
  induction l as [|x r IH]; intros [|y m] L H; cbn in L; try lia; auto.
  pose proof (H 0 x eq_refl) as Q. cbn in Q. injection Q as ->. f_equal. apply IH; [lia|]. intros i z Hz. apply (H (S i) z Hz).
Qed.

Theorem file_pairs_inv : forall l ps, file_pairs l = Ok ps ->
  l = map fst ps ++ map snd ps /\ Forall (fun p => exists b, fst p = grid_name b /\ snd p = solution_name b) ps.
Proof.
  intros l ps H. unfold file_pairs in H. destruct (Nat.eqb_spec (List.length l mod 2) 1) as [|Ho]; [discriminate|].
  destruct (pairs_from_inv _ _ _ _ H) as [L G]. pose proof (Nat.div_mod (List.length l) 2 ltac:(lia)) as E.
  pose proof (Nat.mod_upper_bound (List.length l) 2 ltac:(lia)). split.
  - symmetry. apply nth_ext'.
    + rewrite app_length, !map_length. lia.
    + intros i x Hi. destruct (Nat.lt_ge_cases i (List.length ps)) as [Q|Q].
      * rewrite nth_error_app1 in Hi by (rewrite map_length; auto). rewrite nth_error_map in Hi.
        destruct (nth_error ps i) as [p|] eqn:Ep; [|discriminate]. cbn in Hi. injection Hi as <-. apply (G _ _ Ep).
      * rewrite nth_error_app2 in Hi by (rewrite map_length; auto). rewrite map_length, nth_error_map in Hi.
        destruct (nth_error ps (i - List.length ps)) as [p|] eqn:Ep; [|discriminate]. cbn in Hi. injection Hi as <-.
        destruct (G _ _ Ep) as (_ & B & _). rewrite <- B. f_equal. rewrite <- L. lia.
  - apply Forall_forall. intros p Hp. destruct (In_nth_error _ _ Hp) as [i Hi]. apply (G _ _ Hi).
Qed.

(** ** Tables *)

Open Scope R_scope.

Lemma common_same : forall n, common n n = Some n.
Proof. intros. unfold common. rewrite Nat.eqb_refl. auto. Qed.

Lemma stretch_same : forall A (l : list A), stretch (List.length l) l = l.
Proof. intros A [|x [|y r]]; reflexivity. Qed.

Lemma zip_length : forall A B C (f : A -> B -> C) l m n, List.length l = n -> List.length m = n -> List.length (zip_with f l m) = n.
Proof. induction l; intros [|y m] [|n] H H'; cbn in *; auto; try lia. Qed.

Lemma nth_zip : forall A B C (f : A -> B -> C) l m i x y, nth_error l i = Some x -> nth_error m i = Some y ->
  nth_error (zip_with f l m) i = Some (f x y).
Proof.
  induction l; intros [|y' m] [|i] x y H H'; cbn in *; try discriminate.
  - injection H as <-. injection H' as <-. auto.
  - auto.
Qed.

Lemma row_add_ok : forall n a b, List.length a = n -> List.length b = n -> row_add a b = Ok (zip_with Rplus a b).
Proof.
  intros n a b <- E. unfold row_add. rewrite E, common_same.
  replace (stretch (List.length a) b) with b by (rewrite <- E; symmetry; apply stretch_same). rewrite stretch_same. auto.
Qed.

Lemma table_add_ok : forall n m a b, shaped n m a -> shaped n m b ->
  exists c, table_add a b = Ok c /\ shaped n m c /\
    forall i j x y, cell a i j = Some x -> cell b i j = Some y -> cell c i j = Some (x + y).
Proof.
  intros n m a b [La Fa] [Lb Fb]. unfold table_add. rewrite La, Lb, common_same.
  replace (stretch n a) with a by (rewrite <- La; symmetry; apply stretch_same).
  replace (stretch n b) with b by (rewrite <- Lb; symmetry; apply stretch_same).
  rewrite <- La in Lb. rewrite <- La. clear La n. rename Lb into L.
  revert b Fb L. induction Fa as [|ra a Hr Fa IH]; intros [|rb b] Fb L; cbn in L; try lia.
  - exists []. split; auto. split; [split; auto|]. intros [|i] j x y H; discriminate.
  - inversion Fb as [|? ? Hb Fb' Q1]; subst. assert (Lr : List.length b = List.length a) by lia. destruct (IH b Fb' Lr) as (c & Ec & [Lc Fc] & Hc).
    cbn [zip_with rmap fst snd]. rewrite (row_add_ok (List.length ra)) by auto. cbn [rbind]. rewrite Ec. cbn [rbind].
    exists (zip_with Rplus ra rb :: c). split; auto. split.
    + split; [cbn; congruence|]. constructor; auto. apply zip_length; auto.
    + intros [|i] j x y Hx Hy; unfold cell in *; cbn in *; [apply nth_zip; auto|apply Hc; auto].
Qed.

Lemma other_shaped : forall n m t, shaped n (S m) t -> shaped n m (other_cols t).
Proof.
  intros n m t [L F]. split; [unfold other_cols; rewrite map_length; auto|]. unfold other_cols. apply Forall_map.
  eapply Forall_impl; [|exact F]. intros r Hr. cbn beta in Hr. rewrite skipn_length, Hr. lia.
Qed.

Lemma cell_other : forall t i j, cell (other_cols t) i j = cell t i (S j).
Proof.
  intros t i j. unfold cell, other_cols. rewrite nth_error_map. destruct (nth_error t i) as [r|]; cbn; auto.
  destruct r; cbn; auto. rewrite nth_nil. auto.
Qed.

Lemma cell_some : forall A n m (t : list (list A)) i j, shaped n m t -> (i < n)%nat -> (j < m)%nat -> exists x, cell t i j = Some x.
Proof.
  intros A n m t i j [L F] Hi Hj. unfold cell. destruct (nth_error t i) as [r|] eqn:E.
  - rewrite Forall_forall in F. assert (List.length r = m) by (apply F; eapply nth_error_In; eauto).
    destruct (nth_error r j) as [x|] eqn:Ex; eauto. apply nth_error_None in Ex. lia.
  - apply nth_error_None in E. lia.
Qed.

Lemma sum_tables_ok : forall n m l d, shaped n m d -> Forall (shaped n (S m)) l ->
  exists c, sum_tables d l = Ok c /\ shaped n m c /\
    forall i j, (i < n)%nat -> (j < m)%nat -> exists x ys, cell d i j = Some x /\
      Forall2 (fun t y => cell t i (S j) = Some y) l ys /\ cell c i j = Some (x + sum ys).
Proof.
  induction l as [|t r IH]; intros d Hd Hl; cbn [sum_tables].
  - exists d. split; auto. split; auto. intros i j Hi Hj. destruct (cell_some _ _ _ _ _ _ Hd Hi Hj) as [x Hx].
    exists x, []. split; auto. split; auto. rewrite Hx. apply f_equal. unfold sum; cbn [fold_right]. ring.
  - inversion Hl as [|? ? Ht Hr]; subst. destruct (table_add_ok n m d (other_cols t)) as (d' & Ed & Hd' & Hc); auto using other_shaped.
    rewrite Ed. cbn [rbind]. destruct (IH d' Hd' Hr) as (c & Ec & Hs & Hg). exists c. split; auto. split; auto.
    intros i j Hi Hj. destruct (Hg i j Hi Hj) as (x & ys & Hx & F & Hv).
    destruct (cell_some _ _ _ _ _ _ Hd Hi Hj) as [x0 Hx0].
    destruct (cell_some _ _ _ _ i (S j) Ht Hi ltac:(lia)) as [y Hy].
    assert (cell d' i j = Some (x0 + y)) by (apply Hc; [auto|rewrite cell_other; auto]).
    assert (x = x0 + y) by congruence. subst x. exists x0, (y :: ys). split; auto. split; [constructor; auto|].
    rewrite Hv. apply f_equal. unfold sum; cbn [fold_right]. ring.
Qed.

Theorem total_csv_ok : forall n m d l, Forall (shaped n (S m)) (d :: l) ->
  exists out, total_csv (d :: l) = Ok (Some out) /\ shaped n (S m) out /\
    (forall i, (i < n)%nat -> exists x, cell d i 0 = Some x /\ cell out i 0 = Some x) /\
    (forall i j, (i < n)%nat -> (0 < j < S m)%nat -> exists xs, Forall2 (fun t x => cell t i j = Some x) (d :: l) xs /\ cell out i j = Some (sum xs)).
Proof.
  intros n m d l H. inversion H as [|? ? Hd Hl]; subst. cbn [total_csv].
  destruct (sum_tables_ok n m l (other_cols d)) as (c & Ec & [Lc Fc] & Hc); auto using other_shaped.
  rewrite Ec. cbn [rbind]. unfold hstack. destruct Hd as [Ld Fd].
  assert (Lf : List.length (first_col d) = n) by (unfold first_col; rewrite map_length; auto).
  rewrite Lf, Lc, Nat.eqb_refl. cbn [rbind]. set (out := zip_with (fun a b => a ++ b) (first_col d) c).
  assert (Ho : forall i, (i < n)%nat -> exists x r s, nth_error d i = Some (x :: r) /\ nth_error c i = Some s /\
    List.length s = m /\ nth_error out i = Some (x :: s)).
  { intros i Hi. destruct (nth_error d i) as [rd|] eqn:Ed; [|apply nth_error_None in Ed; lia].
    destruct (nth_error c i) as [s|] eqn:Es; [|apply nth_error_None in Es; lia].
    rewrite Forall_forall in Fd, Fc. pose proof (Fd _ (nth_error_In _ _ Ed)) as L1. pose proof (Fc _ (nth_error_In _ _ Es)) as L2.
    destruct rd as [|x r]; [discriminate|]. exists x, r, s. split; auto. split; auto. split; auto.
    unfold out. rewrite (nth_zip _ _ _ _ _ _ _ [x] s); auto. unfold first_col. rewrite nth_error_map, Ed. auto. }
  exists out. split; auto. refine (conj (conj _ _) (conj _ _)).
  - unfold out. apply zip_length; auto.
  - apply Forall_forall. intros r Hr. destruct (In_nth_error _ _ Hr) as [i Hi].
    assert (i < n)%nat. { rewrite <- (zip_length _ _ _ (fun a b => a ++ b) (first_col d) c n) by auto. apply nth_error_Some. unfold out in Hi. congruence. }
    destruct (Ho i) as (x & r' & s & _ & _ & Ls & E); auto. rewrite Hi in E. injection E as ->. cbn. congruence.
  - intros i Hi. destruct (Ho i Hi) as (x & r & s & E1 & _ & _ & E2). exists x. unfold cell. rewrite E1, E2. auto.
  - intros i [|j] Hi Hj; [lia|]. destruct (Hc i j Hi ltac:(lia)) as (x & ys & Hx & F & Hv).
    exists (x :: ys). split; [constructor; auto; rewrite <- cell_other; auto|].
    destruct (Ho i Hi) as (x' & r & s & E1 & E2 & _ & E3). unfold cell in *. rewrite E2 in Hv. rewrite E3. exact Hv.
Qed.

(** ** Explosion *)

Lemma shift_out : forall ns s P m, ~ In m ns -> shift_nodes P ns s m = P m.
Proof.
  induction ns as [|n r IH]; intros s P m H; cbn; auto. unfold shift_nodes in IH. rewrite IH by (intros Q; apply H; right; auto).
  destruct (Nat.eqb_spec m n); auto. exfalso; apply H; left; auto.
Qed.

Lemma shift_in : forall ns s P m, NoDup ns -> In m ns -> shift_nodes P ns s m = vadd (P m) s.
Proof.
  induction ns as [|n r IH]; intros s P m Hn H; [destruct H|]. apply NoDup_cons_iff in Hn as [Hn Hr]. cbn.
  destruct H as [->|H].
  - change (shift_nodes (fun k => if Nat.eqb k m then vadd (P m) s else P k) r s m = vadd (P m) s).
    rewrite shift_out by auto. rewrite Nat.eqb_refl. auto.
  - change (shift_nodes (fun k => if Nat.eqb k n then vadd (P n) s else P k) r s m = vadd (P m) s).
    rewrite IH by auto. destruct (Nat.eqb_spec m n); subst; auto. contradiction.
Qed.

Lemma vadd_0 : forall v, vadd (V3 0 0 0) v = v.
Proof. intros [x y z]. unfold vadd; cbn. f_equal; ring. Qed.
Lemma vadd_assoc : forall a b c, vadd (vadd a b) c = vadd a (vadd b c).
Proof. intros. unfold vadd; cbn. f_equal; ring. Qed.

Lemma fold_vsum : forall (P : nat -> vect) ns s, fold_left (fun s n => vadd s (P n)) ns s = vadd s (vsum (map P ns)).
Proof.
  induction ns as [|n r IH]; intros s; cbn.
  - destruct s. unfold vadd; cbn. f_equal; ring.
  - rewrite IH, vadd_assoc. auto.
Qed.

Lemma mean_p_ok : forall P ns, ns <> [] -> mean_p P ns = Ok (mean (map P ns)).
Proof.
  intros P ns H. unfold mean_p, vdivr. assert (INR (List.length ns) <> 0).
  { apply not_0_INR. destruct ns; cbn; congruence. }
  rewrite (proj2 (Reqb_false _ 0)) by auto. rewrite fold_vsum, vadd_0. unfold mean. rewrite map_length. f_equal.
  unfold vmul; cbn. f_equal; field; auto.
Qed.

Lemma mean_p_empty : forall P, mean_p P [] = Raise EZeroDivisionError.
Proof. intros. unfold mean_p, vdivr. cbn [List.length INR]. rewrite (proj2 (Reqb_true 0 0)) by auto. auto. Qed.

Lemma mean_p_ext : forall (P Q : nat -> vect) ns, (forall n, In n ns -> P n = Q n) -> map P ns = map Q ns.
Proof. intros. apply map_ext_in. auto. Qed.

Lemma move_zones_ok : forall g k zones P, apart zones ->
  exists Q, move_zones g k P zones = Ok Q /\
    (forall z n, In z zones -> In n z -> Q n = vadd (P n) (vmul (vsub (mean (map P z)) g) k)) /\
    (forall n, (forall z, In z zones -> ~ In n z) -> Q n = P n).
Proof.
  intros g k. induction zones as [|z r IH]; intros P [Fz Fp]; cbn [move_zones].
  - exists P. split; auto. split; [intros z n []|auto].
  - inversion Fz as [|? ? [Hz Hn] Fr]; subst. inversion Fp as [|? ? Hd Fr']; subst.
    rewrite mean_p_ok by auto. cbn [rbind]. set (s := vmul (vsub (mean (map P z)) g) k).
    destruct (IH (shift_nodes P z s) (conj Fr Fr')) as (Q & E & Hin & Hout). exists Q. split; auto.
    rewrite Forall_forall in Hd. split.
    + intros w n [<-|Hw] Hnw.
      * rewrite Hout by (intros w Hw; apply Hd; auto). rewrite shift_in by auto. auto.
      * rewrite (Hin w n Hw Hnw). rewrite shift_out by (intros I; apply (Hd w Hw n I Hnw)). f_equal. f_equal. f_equal. f_equal.
        apply mean_p_ext. intros m Hm. apply shift_out. intros I; apply (Hd w Hw m I Hm).
    + intros n H. rewrite Hout by (intros w Hw; apply H; right; auto). apply shift_out. apply H. left; auto.
Qed.

Theorem explosion_ok : forall P nodes zones k, nodes <> [] -> apart zones ->
  exists Q, move_from_mean_point P nodes zones k = Ok Q /\
    (forall z n, In z zones -> In n z -> Q n = vadd (P n) (vmul (vsub (mean (map P z)) (mean (map P nodes))) k)) /\
    (forall n, (forall z, In z zones -> ~ In n z) -> Q n = P n).
Proof.
  intros P nodes zones k Hn H. unfold move_from_mean_point. rewrite mean_p_ok by auto. cbn [rbind]. apply move_zones_ok; auto.
Qed.

Theorem explosion_shape : forall P nodes zones k Q, apart zones -> move_from_mean_point P nodes zones k = Ok Q ->
  forall z m n, In z zones -> In m z -> In n z -> vsub (Q m) (Q n) = vsub (P m) (P n).
Proof.
  intros P nodes zones k Q H E z m n Hz Hm Hn. destruct nodes as [|a r].
  - unfold move_from_mean_point in E. rewrite mean_p_empty in E. discriminate.
  - destruct (explosion_ok P (a :: r) zones k) as (Q' & E' & G & _); auto; [discriminate|].
    rewrite E in E'. injection E' as <-. rewrite (G z m Hz Hm), (G z n Hz Hn). unfold vsub, vadd; cbn. f_equal; ring.
Qed.

Theorem explosion_empty : forall P nodes zones k, nodes = [] \/ In [] zones ->
  (exists Q, move_from_mean_point P nodes zones k = Ok Q) -> False.
Proof.
  intros P nodes zones k H [Q E]. unfold move_from_mean_point in E. destruct H as [->|H].
  - rewrite mean_p_empty in E. discriminate.
  - destruct (mean_p P nodes) as [g|] eqn:Eg; cbn [rbind] in E; [|discriminate]. clear Eg. revert P E.
    induction zones as [|z r IH]; intros P E; [destruct H|]. cbn [move_zones] in E.
    destruct H as [->|H]; [rewrite mean_p_empty in E; discriminate|].
    destruct (mean_p P z); cbn [rbind] in E; [|discriminate]. eapply IH; eauto.
Qed.

(** ** Zones of the converter *)

Definition of_face (f : nat * nat * nat) (n : nat) : Prop := In n (corners3 f).

Lemma fold_corners : forall fs acc, fold_left (fun ns f => let '(a, b, c) := f in ns ++ [a; b; c]) fs acc = acc ++ flat_map corners3 fs.
Proof.
  induction fs as [|[[a b] c] r IH]; intros acc; cbn [fold_left flat_map corners3]; [rewrite app_nil_r; auto|].
  rewrite IH, <- app_assoc. auto.
Qed.

Lemma delete_extra_ok : forall z n, In n (cz_nodes (delete_extra_nodes z)) <-> In n (cz_nodes z) /\ exists f, In f (cz_faces z) /\ In n (corners3 f).
Proof.
  intros z n. unfold delete_extra_nodes; cbn [cz_nodes]. rewrite fold_corners. cbn [app]. rewrite filter_In, existsb_exists. split.
  - intros [H (m & Hm & E)]. apply Nat.eqb_eq in E. subst m. split; auto. apply in_flat_map in Hm. auto.
  - intros [H Hf]. split; auto. exists n. split; [apply in_flat_map; auto|apply Nat.eqb_refl].
Qed.

Lemma restore_out : forall ns i ids n, ~ In n ns -> restore_from i ns ids n = ids n.
Proof.
  induction ns as [|m r IH]; intros i ids n H; cbn; auto. rewrite IH by (intros Q; apply H; right; auto).
  destruct (Nat.eqb_spec n m); auto. exfalso; apply H; left; auto.
Qed.

Lemma restore_in : forall ns i ids n, NoDup ns -> In n ns -> exists k, nth_error ns k = Some n /\ restore_from i ns ids n = (i + k)%nat.
Proof.
  induction ns as [|m r IH]; intros i ids n Hn H; [destruct H|]. apply NoDup_cons_iff in Hn as [Hm Hr]. cbn [restore_from].
  destruct H as [->|H].
  - exists 0%nat. split; auto. rewrite restore_out by auto. rewrite Nat.eqb_refl. lia.
  - destruct (IH (S i) (fun q => if Nat.eqb q m then i else ids q) n Hr H) as (k & E & Q). exists (S k). split; auto. rewrite Q. lia.
Qed.

Theorem export_after_clean : forall z ids, NoDup (cz_nodes z) ->
  (forall f n, In f (cz_faces z) -> In n (corners3 f) -> In n (cz_nodes z)) ->
  let z' := delete_extra_nodes z in
  cz_faces z' = cz_faces z /\
  (forall n, In n (cz_nodes z') <-> exists f, In f (cz_faces z) /\ In n (corners3 f)) /\
  Forall2 (fun f l => let '(a, b, c) := f in let '(x, y, w) := l in
    (1 <= x)%nat /\ (1 <= y)%nat /\ (1 <= w)%nat /\
    nth_error (cz_nodes z') (x - 1) = Some a /\ nth_error (cz_nodes z') (y - 1) = Some b /\ nth_error (cz_nodes z') (w - 1) = Some c)
    (cz_faces z) (export_links z' (restore_nodes_indices z' ids)).
Proof.
  intros z ids Hn Hf z'. split; [reflexivity|]. split.
  - intros n. unfold z'. rewrite delete_extra_ok. split; [tauto|]. intros (f & Hin & Hc). split; eauto.
  - assert (Hd : NoDup (cz_nodes z')) by (unfold z', delete_extra_nodes; cbn; apply NoDup_filter; auto).
    assert (G : forall f n, In f (cz_faces z) -> In n (corners3 f) ->
      (1 <= restore_nodes_indices z' ids n + 1)%nat /\ nth_error (cz_nodes z') (restore_nodes_indices z' ids n + 1 - 1) = Some n).
    { intros f n Hin Hc. destruct (restore_in (cz_nodes z') 0 ids n Hd) as (k & E & Q).
      - apply delete_extra_ok. split; eauto.
      - unfold restore_nodes_indices. rewrite Q. replace (0 + k + 1 - 1)%nat with k by lia. split; [lia|auto]. }
    unfold export_links. change (cz_faces z') with (cz_faces z). clearbody z'.
    assert (Sub : forall f, In f (cz_faces z) -> In f (cz_faces z)) by auto. revert Sub.
    generalize (cz_faces z) at 1 3 4. induction l as [|[[a b] c] r IH]; intros Sub; cbn [map]; constructor.
    + destruct (G (a, b, c) a) as [? ?]; [apply Sub; left; auto|cbn; auto|].
      destruct (G (a, b, c) b) as [? ?]; [apply Sub; left; auto|cbn; auto|].
      destruct (G (a, b, c) c) as [? ?]; [apply Sub; left; auto|cbn; auto|]. auto 10.
    + apply IH. intros f Hf'. apply Sub. right; auto.
Qed.

Theorem replace_node_ok : forall z on nn, on <> nn ->
  let z' := replace_node z on nn in
  (forall k, nth_error (cz_nodes z') k = option_map (fun n => if Nat.eqb n on then nn else n) (nth_error (cz_nodes z) k)) /\
  ~ In on (cz_nodes z') /\ (forall f, In f (cz_faces z') -> ~ In on (corners3 f)) /\
  List.length (cz_faces z') = List.length (cz_faces z).
Proof.
  intros z on nn H z'. unfold z', replace_node; cbn [cz_nodes cz_faces]. refine (conj _ (conj _ (conj _ _))).
  - intros k. rewrite nth_error_map. reflexivity.
  - intros I. apply in_map_iff in I as (m & E & _). unfold repl in E. destruct (Nat.eqb_spec m on); congruence.
  - intros f I. apply in_map_iff in I as ([[a b] c] & <- & _). cbn. unfold repl.
    destruct (Nat.eqb_spec a on), (Nat.eqb_spec b on), (Nat.eqb_spec c on); intros Q; decompose [or] Q; congruence || contradiction.
  - apply map_length.
Qed.

Open Scope nat_scope.

Theorem block_mesh : forall neg zi zj gelems selems, (forall e, In e selems -> exists x, neg e = Ok x) ->
  exists z, lazurit_block neg zi zj gelems selems = Ok z /\
    lz_nodes z = zi * zj /\ lz_elements z = 2 * ((zi - 1) * (zj - 1)) /\ List.length (lz_links z) = lz_elements z /\
    lz_coords z = [slice gelems 0 (zi * zj); slice gelems (zi * zj) (2 * (zi * zj)); slice gelems (2 * (zi * zj)) (3 * (zi * zj))] /\
    (forall i j, i < zi - 1 -> j < zj - 1 -> In (lower_half zi i j) (lz_links z) /\ In (upper_half zi i j) (lz_links z)) /\
    (forall t, In t (lz_links z) -> exists i j, i < zi - 1 /\ j < zj - 1 /\ (t = lower_half zi i j \/ t = upper_half zi i j)) /\
    (forall t, In t (lz_links z) -> proper t /\ Forall (fun n => 1 <= n <= lz_nodes z) (corners3 t)) /\
    (forall k1 k2 t1 t2 e, nth_error (lz_links z) k1 = Some t1 -> nth_error (lz_links z) k2 = Some t2 ->
       In e (edges3 t1) -> In e (edges3 t2) -> k1 = k2).
Proof.
  intros neg zi zj g s H. destruct (block_runs neg zi zj g s H) as [z E]. exists z.
  destruct (block_shape _ _ _ _ _ _ E) as (N & L & K & C). rewrite N, L, K, C.
  split; [auto|]. split; [auto|]. split; [auto|]. split; [apply links_length|]. split; [auto|]. split; [|split; [|split]].
  - intros i j Hi Hj. destruct (links_at zi zj i j Hi Hj) as [A B]. split; eapply nth_error_In; eauto.
  - intros t Ht. destruct (In_nth_error _ _ Ht) as [k Hk].
    destruct (links_inv _ _ _ _ Hk) as (i & j & Hi & Hj & [[_ ->]|[_ ->]]); exists i, j; auto.
  - intros t Ht. destruct (In_nth_error _ _ Ht) as [k Hk]. eapply links_proper; eauto.
  - intros. eapply edge_once; eauto.
Qed.
