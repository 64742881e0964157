(** Proofs about the zones adjacency matrix. *)

From Coq Require Import ZArith NArith QArith Bool Lia List.
From Verif Require Import Py PyLemmas Heap GridModel GridSpec DecompProofs Zam ZamSpec.
Import ListNotations.
Open Scope list_scope.
Open Scope nat_scope.

(* ------------------------------------------------------------------ *)
(** * Matrices given by functions *)

Definition mat (n : nat) (g : nat -> nat -> nat) : list (list nat) :=
  map (fun i => map (g i) (seq 0 n)) (seq 0 n).

Lemma nth_error_seq : forall n s i, i < n -> nth_error (seq s n) i = Some (s + i).
Proof.
  induction n as [|n IH]; intros s [|i] H; cbn; try lia; auto.
  rewrite IH by lia. f_equal. lia.
Qed.

Lemma nth_error_map_seq : forall A (f : nat -> A) n i, i < n ->
  nth_error (map f (seq 0 n)) i = Some (f i).
Proof. intros. rewrite nth_error_map, nth_error_seq by lia. auto. Qed.

Lemma nth_error_ext' : forall A (l l' : list A), (forall i, nth_error l i = nth_error l' i) -> l = l'.
Proof.
  induction l as [|x l IH]; intros [|y l'] H; auto.
  - discriminate (H 0).
  - discriminate (H 0).
  - pose proof (H 0) as H0. cbn in H0. f_equal; [congruence|]. apply IH. intros i. apply (H (S i)).
Qed.

Lemma firstn_seq' : forall k n s, firstn k (seq s n) = seq s (Nat.min k n).
Proof. induction k as [|k IH]; intros [|n] s; cbn; auto. f_equal. auto. Qed.

Lemma map_seq_ext : forall A (f g : nat -> A) n, (forall i, i < n -> f i = g i) ->
  map f (seq 0 n) = map g (seq 0 n).
Proof. intros. apply map_ext_in. intros i Hi. apply in_seq in Hi. apply H. lia. Qed.

Lemma mat_ext : forall n g g', (forall i j, i < n -> j < n -> g i j = g' i j) -> mat n g = mat n g'.
Proof.
  intros n g g' H. unfold mat. apply map_seq_ext. intros i Hi. apply map_seq_ext. intros j Hj. auto.
Qed.

Lemma list_set_map_seq : forall A (f : nat -> A) n k v, k < n ->
  list_set (map f (seq 0 n)) k v = map (fun i => if i =? k then v else f i) (seq 0 n).
Proof.
  intros A f n k v Hk. apply nth_error_ext'. intros i.
  rewrite nth_error_list_set. rewrite map_length, seq_length.
  destruct (Nat.eq_dec i k) as [->|Hne].
  - destruct (Nat.ltb_spec k n); [|lia]. rewrite nth_error_map_seq by auto. rewrite Nat.eqb_refl. auto.
  - destruct (Nat.lt_ge_cases i n) as [Hi|Hi].
    + rewrite !nth_error_map_seq by auto. destruct (Nat.eqb_spec i k); [lia|auto].
    + rewrite !(proj2 (nth_error_None _ _)); auto; rewrite map_length, seq_length; auto.
Qed.

Lemma py_set_nat : forall A (l : list A) i v, i < length l -> py_set l (Z.of_nat i) v = Ok (list_set l i v).
Proof.
  intros A l i v H. unfold py_set. rewrite py_index_nonneg by lia. rewrite Nat2Z.id. auto.
Qed.

Definition bump (g : nat -> nat -> nat) (i j x y : nat) : nat :=
  if (x =? i) && (y =? j) then S (g x y) else g x y.

Lemma cell_inc_mat : forall n g i j, i < n -> j < n ->
  cell_inc (mat n g) i j = Ok (mat n (bump g i j)).
Proof.
  intros n g i j Hi Hj. unfold cell_inc.
  rewrite (py_get_nat _ _ _ (map (g i) (seq 0 n))).
  2:{ unfold mat. rewrite nth_error_map_seq by auto. auto. }
  cbn [rbind]. rewrite (py_get_nat _ _ _ (g i j)) by (apply nth_error_map_seq; auto).
  cbn [rbind]. rewrite py_set_nat by (rewrite map_length, seq_length; auto). cbn [rbind].
  rewrite py_set_nat by (unfold mat; rewrite map_length, seq_length; auto). f_equal.
  unfold mat. rewrite list_set_map_seq by auto. apply map_seq_ext. intros x Hx.
  unfold bump. destruct (Nat.eqb_spec x i) as [->|Hne]; cbn [andb].
  - rewrite list_set_map_seq by auto. apply map_seq_ext. intros y Hy.
    destruct (Nat.eqb_spec y j) as [->|]; auto.
  - reflexivity.
Qed.

(* ------------------------------------------------------------------ *)
(** * Sums *)

Definition sum (n : nat) (f : nat -> nat) : nat := list_sum (map f (seq 0 n)).

Lemma lsum_cons : forall x l, list_sum (x :: l) = x + list_sum l.
Proof. reflexivity. Qed.

Lemma lsum_map_add : forall A (f g : A -> nat) l,
  list_sum (map (fun x => f x + g x) l) = list_sum (map f l) + list_sum (map g l).
Proof. intros. induction l as [|x l IH]; auto. cbn [map]. rewrite !lsum_cons, IH. lia. Qed.

Lemma lsum_map_ext : forall A (f g : A -> nat) l, (forall x, In x l -> f x = g x) ->
  list_sum (map f l) = list_sum (map g l).
Proof. intros. f_equal. apply map_ext_in. auto. Qed.

Lemma lsum_zero : forall A (f : A -> nat) l, (forall x, In x l -> f x = 0) -> list_sum (map f l) = 0.
Proof.
  intros A f l H. induction l as [|x l IH]; auto. cbn [map]. rewrite lsum_cons, H, IH; simpl; auto.
  intros; apply H; simpl; auto.
Qed.

Lemma lsum_single : forall (f : nat -> nat) n k, k < n -> (forall i, i < n -> i <> k -> f i = 0) ->
  sum n f = f k.
Proof.
  intros f n k Hk H. unfold sum.
  assert (En : n = k + S (n - S k)) by lia. rewrite En at 1. clear En. rewrite seq_app, map_app, list_sum_app. cbn [seq map].
  rewrite lsum_cons.
  rewrite lsum_zero by (intros i Hi; apply in_seq in Hi; apply H; lia).
  rewrite lsum_zero by (intros i Hi; apply in_seq in Hi; apply H; lia).
  cbn [Nat.add]. lia.
Qed.

(** Number of elements with a property, as a sum of indicators. *)
Definition ind (b : bool) : nat := if b then 1 else 0.
Definition cnt {A} (p : A -> bool) (l : list A) : nat := length (filter p l).

Lemma cnt_cons : forall A (p : A -> bool) x l, cnt p (x :: l) = ind (p x) + cnt p l.
Proof. intros. unfold cnt, ind. cbn. destruct (p x); auto. Qed.

Lemma sum_cnt : forall A n (p : nat -> A -> bool) (q : A -> bool) es,
  (forall e, In e es -> sum n (fun i => ind (p i e)) = ind (q e)) ->
  sum n (fun i => cnt (p i) es) = cnt q es.
Proof.
  intros A n p q es H. induction es as [|e es IH].
  - unfold sum. apply lsum_zero. auto.
  - rewrite cnt_cons, <- IH by (intros; apply H; simpl; auto). rewrite <- H by (simpl; auto).
    unfold sum. rewrite <- lsum_map_add. apply lsum_map_ext. intros. apply cnt_cons.
Qed.

Lemma cnt_counts : forall A (p : A -> bool) (q : A -> Prop) l,
  (forall x, In x l -> (p x = true <-> q x)) -> counts q l (cnt p l).
Proof. intros A p q l H. exists (filter p l). split; auto. apply sublist_filter. auto. Qed.

Lemma counts_unique : forall A (p : A -> Prop) l n m, counts p l n -> counts p l m -> n = m.
Proof.
  intros A p l n m (a & Ha & <-) (b & Hb & <-). f_equal. eapply sublist_unique; eauto.
Qed.

Section ZamProofs.
  Context {F : FloatOps}.

  (* ---------------------------------------------------------------- *)
  (** * Building the matrix *)

  Section Build.
    Variable h : heap.
    Variable zs : list nat.
    Hypothesis Hnd : NoDup zs.
    Let n := length zs.

    (** The cell that an edge is counted in (first of the two). *)
    Definition hit (e : nat) : option (nat * nat) :=
      match e_faces h e with
      | [f] => match zone_index h zs f with Ok i => Some (i, n) | _ => None end
      | [f; g] => match zone_index h zs f, zone_index h zs g with
                  | Ok i, Ok j => Some (i, j) | _, _ => None end
      | _ => None
      end.

    Definition hitb (x y e : nat) : bool :=
      match hit e with
      | Some (i, j) => ((x =? i) && (y =? j)) || ((x =? j) && (y =? i))
      | None => false
      end.

    Lemma zone_index_nth : forall f i z, nth_error zs i = Some z -> f_zone h f = Some z ->
      zone_index h zs f = Ok i.
    Proof.
      intros f i z Hi Ez. unfold zone_index. rewrite Ez.
      assert (E : index_of (fun y => ozone_eqb (Some z) (Some y)) zs = Some i)
        by (apply (index_of_nodup zs i z); auto).
      rewrite E. auto.
    Qed.

    Lemma zone_index_inv : forall f i, zone_index h zs f = Ok i ->
      exists z, nth_error zs i = Some z /\ f_zone h f = Some z /\ i < n.
    Proof.
      intros f i H. unfold zone_index in H. destruct (index_of _ zs) eqn:E; inv H.
      apply index_of_Some in E as (z & Hz & Ez). exists z. split; auto. split.
      - destruct (f_zone h f); cbn in Ez; [|discriminate]. apply Nat.eqb_eq in Ez. congruence.
      - apply nth_error_Some. congruence.
    Qed.

    Lemma hit_range : forall e i j, hit e = Some (i, j) -> i < n /\ j <= n /\ (j < n \/ j = n).
    Proof.
      intros e i j H. unfold hit in H.
      destruct (e_faces h e) as [|f [|g [|k r]]]; try discriminate.
      - destruct (zone_index h zs f) eqn:E; inv H. apply zone_index_inv in E as (_ & _ & _ & Hi). lia.
      - destruct (zone_index h zs f) eqn:E; [|discriminate].
        destruct (zone_index h zs g) eqn:E2; inv H.
        apply zone_index_inv in E as (_ & _ & _ & Hi). apply zone_index_inv in E2 as (_ & _ & _ & Hj). lia.
    Qed.

    Lemma hit_total : forall es e, edges_in_zones h es zs -> In e es -> hit e <> None.
    Proof.
      intros es e H He. destruct (H e He) as [Hlen Hz]. unfold hit.
      destruct (e_faces h e) as [|f [|g [|k r]]]; cbn [length] in Hlen; try lia.
      - destruct (Hz f) as (z & Hin & Ez); [simpl; auto|]. apply In_nth_error in Hin as (i & Hi).
        rewrite (zone_index_nth f i z) by auto. discriminate.
      - destruct (Hz f) as (z & Hin & Ez); [simpl; auto|]. apply In_nth_error in Hin as (i & Hi).
        rewrite (zone_index_nth f i z) by auto.
        destruct (Hz g) as (y & Hin & Ey); [simpl; auto|]. apply In_nth_error in Hin as (j & Hj).
        rewrite (zone_index_nth g j y) by auto. discriminate.
    Qed.

    Lemma inc_mat : forall g i j, i < S n -> j < S n ->
      inc (mkZam n (mat (S n) g)) i j =
      Ok (mkZam n (mat (S n) (fun x y => g x y + ind (((x =? i) && (y =? j)) || ((x =? j) && (y =? i)))))).
    Proof.
      intros g i j Hi Hj. unfold inc. cbn [zm zc]. rewrite cell_inc_mat by auto. cbn [rbind].
      destruct (Nat.eqb_spec i j) as [->|Hne].
      - f_equal. f_equal. apply mat_ext. intros x y _ _. unfold bump.
        rewrite orb_diag. destruct ((x =? j) && (y =? j)); cbn; lia.
      - rewrite cell_inc_mat by auto. cbn [rbind]. f_equal. f_equal. apply mat_ext.
        intros x y _ _. unfold bump.
        destruct (Nat.eqb_spec x i), (Nat.eqb_spec y j), (Nat.eqb_spec x j), (Nat.eqb_spec y i);
          cbn; subst; try lia.
    Qed.

    Lemma zam_edge_mat : forall g e, hit e <> None ->
      zam_edge h zs (mkZam n (mat (S n) g)) e =
      Ok (mkZam n (mat (S n) (fun x y => g x y + ind (hitb x y e)))).
    Proof.
      intros g e H. destruct (hit e) as [[i j]|] eqn:Eh; [|congruence].
      destruct (hit_range e i j Eh) as (Hi & Hj & _).
      assert (E : zam_edge h zs (mkZam n (mat (S n) g)) e = inc (mkZam n (mat (S n) g)) i j).
      { unfold hit in Eh. unfold zam_edge.
        destruct (e_faces h e) as [|f [|k [|k' r]]]; try discriminate.
        - destruct (zone_index h zs f); inv Eh. auto.
        - destruct (zone_index h zs f); [|discriminate].
          destruct (zone_index h zs k); inv Eh. auto. }
      rewrite E, inc_mat by lia. f_equal. f_equal. apply mat_ext. intros x y _ _.
      unfold hitb. rewrite Eh. auto.
    Qed.

    Lemma zam_edges_mat : forall es g, (forall e, In e es -> hit e <> None) ->
      zam_edges h zs (mkZam n (mat (S n) g)) es =
      Ok (mkZam n (mat (S n) (fun x y => g x y + cnt (hitb x y) es))).
    Proof.
      induction es as [|e es IH]; intros g H; cbn [zam_edges].
      - f_equal. f_equal. apply mat_ext. intros. unfold cnt. cbn. lia.
      - rewrite zam_edge_mat by (apply H; simpl; auto). cbn [rbind].
        rewrite IH by (intros; apply H; simpl; auto). f_equal. f_equal. apply mat_ext.
        intros. rewrite cnt_cons. lia.
    Qed.

    Lemma repeat_map : forall A (x : A) k s, repeat x k = map (fun _ => x) (seq s k).
    Proof. intros A x k. induction k as [|k IH]; intros s; cbn; auto. f_equal. auto. Qed.

    Lemma zam_build_mat : forall es, edges_in_zones h es zs ->
      zam_build h es zs = Ok (mkZam n (mat (S n) (fun x y => cnt (hitb x y) es))).
    Proof.
      intros es H. unfold zam_build. fold n. replace (n + 1) with (S n) by lia.
      replace (repeat (repeat 0 (S n)) (S n)) with (mat (S n) (fun _ _ => 0)).
      - rewrite zam_edges_mat; auto. intros e He. eapply hit_total; eauto.
      - unfold mat. rewrite (repeat_map _ _ _ 0). apply map_seq_ext. intros. symmetry. apply repeat_map.
    Qed.

    (** The cells say what they should. *)
    Lemma hitb_joins : forall i j z y e, nth_error zs i = Some z -> nth_error zs j = Some y ->
      (hitb i j e = true <-> joins h z y e).
    Proof.
      intros i j z y e Hi Hj.
      assert (Hin : i < n) by (apply nth_error_Some; congruence).
      assert (Hjn : j < n) by (apply nth_error_Some; congruence).
      unfold hitb. split.
      - destruct (hit e) as [[a b]|] eqn:Eh; [|discriminate]. intros H.
        unfold hit in Eh. destruct (e_faces h e) as [|f [|g [|k r]]] eqn:Ef; try discriminate.
        + destruct (zone_index h zs f); inv Eh.
          apply orb_true_iff in H as [H|H]; apply andb_true_iff in H as [H1 H2];
            apply Nat.eqb_eq in H1, H2; lia.
        + destruct (zone_index h zs f) eqn:E1; [|discriminate].
          destruct (zone_index h zs g) eqn:E2; inv Eh.
          apply zone_index_inv in E1 as (z1 & N1 & Z1 & _). apply zone_index_inv in E2 as (z2 & N2 & Z2 & _).
          apply orb_true_iff in H as [H|H]; apply andb_true_iff in H as [H1 H2];
            apply Nat.eqb_eq in H1, H2; subst.
          * exists f, g. split; [auto|]. split; congruence.
          * exists g, f. split; [auto|]. split; congruence.
      - intros (f & g & Ef & Zf & Zg). unfold hit.
        pose proof (zone_index_nth f i z Hi Zf) as I1. pose proof (zone_index_nth g j y Hj Zg) as I2.
        destruct Ef as [Ef|Ef]; rewrite Ef, I1, I2, !Nat.eqb_refl; cbn; auto. apply orb_true_r.
    Qed.

    Lemma hitb_bounds : forall i z e, nth_error zs i = Some z -> (hitb i n e = true <-> bounds h z e).
    Proof.
      intros i z e Hi. assert (Hin : i < n) by (apply nth_error_Some; congruence). unfold hitb. split.
      - destruct (hit e) as [[a b]|] eqn:Eh; [|discriminate]. intros H.
        unfold hit in Eh. destruct (e_faces h e) as [|f [|g [|k r]]] eqn:Ef; try discriminate.
        + destruct (zone_index h zs f) eqn:E1; inv Eh. apply zone_index_inv in E1 as (z1 & N1 & Z1 & Ha).
          exists f. split; auto. apply orb_true_iff in H as [H|H]; apply andb_true_iff in H as [H1 H2];
            apply Nat.eqb_eq in H1, H2; subst; [congruence|lia].
        + destruct (zone_index h zs f) eqn:E1; [|discriminate].
          destruct (zone_index h zs g) eqn:E2; inv Eh.
          apply zone_index_inv in E1 as (_ & _ & _ & Ha). apply zone_index_inv in E2 as (_ & _ & _ & Hb).
          apply orb_true_iff in H as [H|H]; apply andb_true_iff in H as [H1 H2];
            apply Nat.eqb_eq in H1, H2; subst; lia.
      - intros (f & Ef & Zf). unfold hit. rewrite Ef, (zone_index_nth f i z Hi Zf), !Nat.eqb_refl. auto.
    Qed.

    Lemma hitb_corner : forall e, hitb n n e = false.
    Proof.
      intros e. unfold hitb. destruct (hit e) as [[a b]|] eqn:Eh; auto.
      apply hit_range in Eh as (Ha & _). destruct (Nat.eqb_spec n a); [lia|].
      destruct (n =? b); auto.
    Qed.

    Lemma hitb_sym : forall x y e, hitb x y e = hitb y x e.
    Proof.
      intros x y e. unfold hitb. destruct (hit e) as [[a b]|]; auto. rewrite orb_comm.
      f_equal; apply andb_comm.
    Qed.
  End Build.

  Lemma entry_mat : forall n g i j, i < n -> j < n -> entry (mat n g) i j = Some (g i j).
  Proof.
    intros n g i j Hi Hj. unfold entry, mat. rewrite nth_error_map_seq by auto.
    apply nth_error_map_seq. auto.
  Qed.

  Lemma entry_mat_none : forall n g i j, n <= i \/ n <= j -> entry (mat n g) i j = None.
  Proof.
    intros n g i j H. unfold entry, mat. destruct (Nat.lt_ge_cases i n) as [Hi|Hi].
    - rewrite nth_error_map_seq by auto. apply nth_error_None. rewrite map_length, seq_length. lia.
    - rewrite (proj2 (nth_error_None _ _)); auto. rewrite map_length, seq_length. auto.
  Qed.

  Lemma zam_main : forall h es zs, NoDup zs -> edges_in_zones h es zs ->
    exists a, zam_build h es zs = Ok a /\ zc a = length zs /\
      (forall i j, entry (zm a) i j = entry (zm a) j i) /\
      (forall i j, entry (zm a) i j <> None <-> i <= length zs /\ j <= length zs) /\
      entry (zm a) (length zs) (length zs) = Some 0 /\
      (forall i j z y, nth_error zs i = Some z -> nth_error zs j = Some y ->
         exists k, entry (zm a) i j = Some k /\ counts (joins h z y) es k) /\
      (forall i z, nth_error zs i = Some z ->
         exists k, entry (zm a) i (length zs) = Some k /\ counts (bounds h z) es k).
  Proof.
    intros h es zs Hnd He. rewrite (zam_build_mat h zs Hnd es He).
    eexists. split; [reflexivity|]. cbn [zc zm]. set (n := length zs).
    assert (Hr : forall i j, entry (mat (S n) (fun x y => cnt (hitb h zs x y) es)) i j <> None <-> i <= n /\ j <= n).
    { intros i j. destruct (Nat.lt_ge_cases i (S n)) as [Hi|Hi]; [destruct (Nat.lt_ge_cases j (S n)) as [Hj|Hj]|].
      - rewrite entry_mat by auto. split; [lia|discriminate].
      - rewrite entry_mat_none by auto. split; [congruence|lia].
      - rewrite entry_mat_none by auto. split; [congruence|lia]. }
    split; [auto|]. split.
    { intros i j. destruct (Nat.lt_ge_cases i (S n)) as [Hi|Hi]; [destruct (Nat.lt_ge_cases j (S n)) as [Hj|Hj]|].
      - rewrite !entry_mat by auto. f_equal. unfold cnt. f_equal. apply filter_ext.
        intros. apply hitb_sym.
      - rewrite !entry_mat_none by auto. auto.
      - rewrite !entry_mat_none by auto. auto. }
    split; [exact Hr|]. split.
    { rewrite entry_mat by lia. f_equal. unfold cnt.
      rewrite (filter_ext _ (fun _ => false)) by (intros; apply hitb_corner).
      clear. induction es; auto. }
    split.
    { intros i j z y Hi Hj.
      assert (i < n) by (apply nth_error_Some; congruence). assert (j < n) by (apply nth_error_Some; congruence).
      rewrite entry_mat by lia. eexists. split; [reflexivity|]. apply cnt_counts.
      intros e _. apply (hitb_joins h zs Hnd i j z y e); auto. }
    { intros i z Hi. assert (i < n) by (apply nth_error_Some; congruence).
      rewrite entry_mat by lia. eexists. split; [reflexivity|]. apply cnt_counts.
      intros e _. apply (hitb_bounds h zs Hnd i z e); auto. }
  Qed.

  (** The edges that are refused. *)
  Lemma zam_raises : forall h es zs e, In e es ->
    (length (e_faces h e) = 0 \/ 3 <= length (e_faces h e)) -> exists x, zam_build h es zs = Raise x.
  Proof.
    intros h es zs e Hin Hlen. unfold zam_build.
    generalize (mkZam (length zs) (repeat (repeat 0 (length zs + 1)) (length zs + 1))) as a.
    induction es as [|x es IH]; intros a; [destruct Hin|]. cbn [zam_edges].
    destruct Hin as [->|Hin].
    - unfold zam_edge. destruct (e_faces h e) as [|f [|g [|k r]]]; cbn [length] in Hlen; try lia; cbn; eauto.
    - destruct (zam_edge h zs a x); cbn; eauto.
  Qed.

  (* ---------------------------------------------------------------- *)
  (** * Statistics *)

  Lemma stat_lines_mat : forall n g is b i c, (forall k, In k is -> k < n) ->
    stat_lines (mkZam n (mat (S n) g)) is b i c =
    Ok (b + list_sum (map (fun k => g k n) is), i + list_sum (map (fun k => g k k) is),
        c + list_sum (map (fun k => list_sum (map (g k) (seq (k + 1) (n - (k + 1))))) is)).
  Proof.
    intros n g is. induction is as [|k is IH]; intros b i c H; cbn [stat_lines map].
    - unfold list_sum. cbn. rewrite !Nat.add_0_r. auto.
    - assert (Hk : k < n) by (apply H; simpl; auto). cbn [zm zc].
      rewrite (py_get_nat _ _ _ (map (g k) (seq 0 (S n)))).
      2:{ unfold mat. apply nth_error_map_seq. lia. }
      cbn [rbind]. rewrite (py_get_nat _ _ _ (g k n)) by (apply nth_error_map_seq; lia).
      cbn [rbind]. rewrite (py_get_nat _ _ _ (g k k)) by (apply nth_error_map_seq; lia).
      cbn [rbind]. rewrite IH by (intros; apply H; simpl; auto). rewrite !lsum_cons.
      assert (Es : py_slice (map (g k) (seq 0 (S n))) (Z.of_nat (k + 1)) (Z.of_nat n)
                   = map (g k) (seq (k + 1) (n - (k + 1)))).
      { unfold py_slice. rewrite !py_bound_pos by lia. rewrite map_length, seq_length, !Nat2Z.id.
        rewrite !Nat.min_l by lia. rewrite skipn_map, firstn_map. f_equal.
        assert (Hsk : forall m s t, t <= m -> skipn t (seq s m) = seq (s + t) (m - t)).
        { induction m as [|m IHm]; intros s [|t] Ht; try lia.
          - cbn. f_equal; lia.
          - cbn. rewrite Nat.add_0_r. auto.
          - cbn [skipn seq]. rewrite IHm by lia. f_equal; lia. }
        rewrite Hsk by lia. rewrite firstn_seq'. f_equal. lia. }
      rewrite Es. f_equal. f_equal; [f_equal|]; lia.
  Qed.

  Lemma cross_pairs : forall n g a b, a < n -> b < n -> a <> b ->
    (forall x y, g x y = ind (((x =? a) && (y =? b)) || ((x =? b) && (y =? a)))) ->
    sum n (fun k => list_sum (map (g k) (seq (k + 1) (n - (k + 1))))) = 1.
  Proof.
    intros n g a b Ha Hb Hne Hg.
    assert (G : forall lo hi, lo < hi -> hi < n ->
      (forall x y, g x y = ind (((x =? lo) && (y =? hi)) || ((x =? hi) && (y =? lo)))) ->
      sum n (fun k => list_sum (map (g k) (seq (k + 1) (n - (k + 1))))) = 1).
    { clear a b Ha Hb Hne Hg. intros lo hi Hlo Hhi Hg. rewrite (lsum_single _ n lo); [|lia|].
      - replace (n - (lo + 1)) with ((hi - (lo + 1)) + S (n - S hi)) by lia.
        rewrite seq_app, map_app, list_sum_app. cbn [seq map]. rewrite lsum_cons.
        rewrite lsum_zero, (lsum_zero _ _ (seq (S _) _)).
        + replace (lo + 1 + (hi - (lo + 1))) with hi by lia. rewrite Hg, !Nat.eqb_refl. auto.
        + intros y Hy. apply in_seq in Hy. rewrite Hg.
          destruct (Nat.eqb_spec y hi); [lia|]. destruct (Nat.eqb_spec lo hi); [lia|].
          destruct (lo =? lo); auto.
        + intros y Hy. apply in_seq in Hy. rewrite Hg.
          destruct (Nat.eqb_spec y hi); [lia|]. destruct (Nat.eqb_spec lo hi); [lia|].
          destruct (lo =? lo); auto.
      - intros i Hi Hne. apply lsum_zero. intros y Hy. apply in_seq in Hy. rewrite Hg.
        destruct (Nat.eqb_spec i lo); [lia|]. cbn [andb orb].
        destruct (Nat.eqb_spec i hi), (Nat.eqb_spec y lo); auto. lia. }
    destruct (Nat.lt_ge_cases a b) as [Hab|Hab].
    - apply (G a b); auto.
    - apply (G b a); auto; [lia|]. intros x y. rewrite Hg, orb_comm. auto.
  Qed.

  Lemma sum_list_cnt : forall A n (g : nat -> nat -> A -> bool) (l : nat -> list nat) q es,
    (forall e, In e es -> sum n (fun k => list_sum (map (fun y => ind (g k y e)) (l k))) = ind (q e)) ->
    sum n (fun k => list_sum (map (fun y => cnt (g k y) es) (l k))) = cnt q es.
  Proof.
    intros A n g l q es H. induction es as [|e es IH].
    - unfold sum. apply lsum_zero. intros. apply lsum_zero. auto.
    - rewrite cnt_cons, <- IH by (intros; apply H; simpl; auto). rewrite <- H by (simpl; auto).
      unfold sum. rewrite <- lsum_map_add. apply lsum_map_ext. intros k _.
      rewrite <- lsum_map_add. apply lsum_map_ext. intros. apply cnt_cons.
  Qed.

  Definition b_border (h : heap) (e : nat) : bool := (length (e_faces h e) =? 1).
  Definition b_inner (h : heap) (e : nat) : bool :=
    match e_faces h e with [f; g] => ozone_eqb (f_zone h f) (f_zone h g) | _ => false end.
  Definition b_cross (h : heap) (e : nat) : bool :=
    match e_faces h e with [f; g] => negb (ozone_eqb (f_zone h f) (f_zone h g)) | _ => false end.

  Lemma hit_same : forall h zs f g i j, NoDup zs -> zone_index h zs f = Ok i -> zone_index h zs g = Ok j ->
    ozone_eqb (f_zone h f) (f_zone h g) = (i =? j).
  Proof.
    intros h zs f g i j Hnd Hi Hj. apply zone_index_inv in Hi as (z & Nz & Ez & _).
    apply zone_index_inv in Hj as (y & Ny & Ey & _). rewrite Ez, Ey. cbn.
    destruct (Nat.eqb_spec i j) as [->|Hne].
    - apply Nat.eqb_eq. congruence.
    - apply Nat.eqb_neq. intros ->. apply Hne. eapply (proj1 (NoDup_nth_error zs)); eauto.
      + apply nth_error_Some. congruence.
      + congruence.
  Qed.

  Lemma three_counts : forall h es, (forall e, In e es -> length (e_faces h e) = 1 \/ length (e_faces h e) = 2) ->
    cnt (b_border h) es + cnt (b_inner h) es + cnt (b_cross h) es = length es.
  Proof.
    intros h es. induction es as [|e es IH]; intros H; auto.
    rewrite !cnt_cons. cbn [length]. rewrite <- IH by (intros; apply H; simpl; auto).
    assert (ind (b_border h e) + ind (b_inner h e) + ind (b_cross h e) = 1); [|lia].
    destruct (H e) as [He|He]; [simpl; auto| |]; unfold b_border, b_inner, b_cross;
      destruct (e_faces h e) as [|f [|g [|k r]]]; cbn in He; try lia; cbn.
    - auto.
    - destruct (ozone_eqb (f_zone h f) (f_zone h g)); auto.
  Qed.

  Lemma stat_mat : forall h es zs, NoDup zs -> edges_in_zones h es zs ->
    let n := length zs in let g := fun x y => cnt (hitb h zs x y) es in
    stat_lines (mkZam n (mat (S n) g)) (seq 0 n) 0 0 0 =
    Ok (cnt (b_border h) es, cnt (b_inner h) es, cnt (b_cross h) es).
  Proof.
    intros h es zs Hnd He n g. rewrite stat_lines_mat by (intros k Hk; apply in_seq in Hk; lia).
    rewrite !Nat.add_0_l. f_equal.
    assert (Hh : forall e, In e es -> exists i j, hit h zs e = Some (i, j)).
    { intros e Hin. pose proof (hit_total h zs Hnd es e He Hin). destruct (hit h zs e) as [[i j]|]; [eauto|congruence]. }
    f_equal; [f_equal|].
    - apply (sum_cnt _ n (fun k => hitb h zs k n)). intros e Hin. destruct (Hh e Hin) as (i & j & Eh).
      pose proof (hit_range h zs e i j Eh) as (Hi & Hj & _). fold n in Hi, Hj.
      unfold hitb. rewrite Eh. unfold hit in Eh. unfold b_border.
      destruct (e_faces h e) as [|f [|k [|k' r]]]; try discriminate; cbn [length].
      + destruct (zone_index h zs f); inv Eh. fold n. rewrite (lsum_single _ n i).
        * rewrite !Nat.eqb_refl. auto.
        * auto.
        * intros x Hx Hne. destruct (Nat.eqb_spec x i); [lia|]. destruct (Nat.eqb_spec x n); [lia|]. auto.
      + destruct (zone_index h zs f) eqn:E1; [|discriminate].
        destruct (zone_index h zs k) eqn:E2; inv Eh. apply zone_index_inv in E2 as (_ & _ & _ & Hjn).
        fold n in Hjn. cbn. unfold sum. apply lsum_zero. intros x Hx. apply in_seq in Hx.
        destruct (Nat.eqb_spec n j); [lia|]. destruct (Nat.eqb_spec n i); [lia|].
        rewrite !andb_false_r. auto.
    - apply (sum_cnt _ n (fun k => hitb h zs k k)). intros e Hin. destruct (Hh e Hin) as (i & j & Eh).
      pose proof (hit_range h zs e i j Eh) as (Hi & Hj & _). fold n in Hi, Hj.
      unfold hitb. rewrite Eh. unfold hit in Eh. unfold b_inner.
      destruct (e_faces h e) as [|f [|k [|k' r]]]; try discriminate.
      + destruct (zone_index h zs f); inv Eh. fold n. unfold sum. apply lsum_zero. intros x Hx. apply in_seq in Hx.
        destruct (Nat.eqb_spec x n); [lia|]. rewrite !andb_false_r. auto.
      + destruct (zone_index h zs f) eqn:E1; [|discriminate].
        destruct (zone_index h zs k) eqn:E2; inv Eh.
        rewrite (hit_same h zs f k i j) by auto.
        destruct (Nat.eqb_spec i j) as [->|Hne].
        * rewrite (lsum_single _ n j); auto.
          -- rewrite Nat.eqb_refl. auto.
          -- intros x Hx Hne. destruct (Nat.eqb_spec x j); [lia|]. auto.
        * unfold sum. apply lsum_zero. intros x _.
          destruct (Nat.eqb_spec x i), (Nat.eqb_spec x j); auto. lia.
    - apply (sum_list_cnt _ n (hitb h zs) (fun k => seq (k + 1) (n - (k + 1)))). intros e Hin.
      destruct (Hh e Hin) as (i & j & Eh).
      pose proof (hit_range h zs e i j Eh) as (Hi & Hj & _). fold n in Hi, Hj.
      assert (Eb : forall x y, ind (hitb h zs x y e) =
        ind (((x =? i) && (y =? j)) || ((x =? j) && (y =? i)))) by (intros; unfold hitb; rewrite Eh; auto).
      assert (Hz : (j = n \/ i = j) -> sum n (fun k => list_sum (map (fun y => ind (hitb h zs k y e))
                     (seq (k + 1) (n - (k + 1))))) = 0).
      { intros Hc. unfold sum. apply lsum_zero. intros x Hx. apply in_seq in Hx. apply lsum_zero.
        intros y Hy. apply in_seq in Hy. rewrite Eb.
        destruct (Nat.eqb_spec x i), (Nat.eqb_spec y j), (Nat.eqb_spec x j), (Nat.eqb_spec y i);
          auto; exfalso; lia. }
      unfold hit in Eh. unfold b_cross.
      destruct (e_faces h e) as [|f [|k [|k' r]]]; try discriminate.
      + destruct (zone_index h zs f); inv Eh. apply Hz. auto.
      + destruct (zone_index h zs f) eqn:E1; [|discriminate].
        destruct (zone_index h zs k) eqn:E2; inv Eh.
        rewrite (hit_same h zs f k i j) by auto.
        destruct (Nat.eqb_spec i j) as [->|Hne]; [apply Hz; auto|].
        apply zone_index_inv in E2 as (_ & _ & _ & Hjn). fold n in Hjn.
        apply (cross_pairs n (fun x y => ind (hitb h zs x y e)) i j); auto.
  Qed.

  Lemma statistics_main : forall h es zs a, NoDup zs -> edges_in_zones h es zs -> zam_build h es zs = Ok a ->
    exists b i c,
      counts (fun e => is_border h e = true) es b /\
      counts (fun e => is_inner h e = Ok true) es i /\
      counts (fun e => is_cross h e = Ok true) es c /\
      b + i + c = length es /\
      (es <> [] -> exists pb pi pc,
         edges_statistics a = Ok ((length es, b, i, c), (pb, pi, pc)) /\
         (pb == inject_Z (100 * Z.of_nat b) / inject_Z (Z.of_nat (length es)) /\
          pi == inject_Z (100 * Z.of_nat i) / inject_Z (Z.of_nat (length es)) /\
          pc == inject_Z (100 * Z.of_nat c) / inject_Z (Z.of_nat (length es)) /\
          pb + pi + pc == 100)%Q) /\
      (es = [] -> edges_statistics a = Raise EZeroDivisionError).
  Proof.
    intros h es zs a Hnd He Ha. rewrite (zam_build_mat h zs Hnd es He) in Ha. inv Ha.
    exists (cnt (b_border h) es), (cnt (b_inner h) es), (cnt (b_cross h) es).
    assert (Hs : cnt (b_border h) es + cnt (b_inner h) es + cnt (b_cross h) es = length es)
      by (apply three_counts; intros e Hin; apply (He e Hin)).
    split; [apply cnt_counts; intros e _; unfold is_border, b_border; tauto|].
    split. { apply cnt_counts. intros e Hin. unfold is_inner, b_inner. destruct (He e Hin) as [Hl _].
      destruct (e_faces h e) as [|f [|g [|k r]]]; cbn in Hl; try lia; split; intros; congruence. }
    split. { apply cnt_counts. intros e Hin. unfold is_cross, b_cross. destruct (He e Hin) as [Hl _].
      destruct (e_faces h e) as [|f [|g [|k r]]]; cbn in Hl; try lia; split; intros; congruence. }
    split; [auto|].
    unfold edges_statistics. cbn [zc]. rewrite (stat_mat h es zs Hnd He). cbn [rbind].
    rewrite Hs. split.
    - intros Hne. destruct (Nat.eqb_spec (length es) 0) as [Hc|Hc]; [destruct es; [congruence|discriminate]|].
      assert (Hp : forall x, (percent x (length es) == inject_Z (100 * Z.of_nat x) / inject_Z (Z.of_nat (length es)))%Q).
      { intros x. unfold percent, Qdiv, Qinv, inject_Z. cbn [Qnum Qden].
        destruct (length es) as [|k]; [lia|]. cbn [Z.of_nat]. rewrite Pos.of_nat_succ.
        unfold Qeq. cbn [Qnum Qden Qmult]. lia. }
      eexists _, _, _. split; [reflexivity|]. split; [apply Hp|]. split; [apply Hp|]. split; [apply Hp|].
      rewrite !Hp. set (d := inject_Z (Z.of_nat (length es))).
      assert (Hd : ~ (d == 0)%Q) by (unfold d, Qeq; cbn; lia).
      apply (Qmult_inj_r _ _ d Hd). 
      transitivity (inject_Z (100 * Z.of_nat (cnt (b_border h) es)) + inject_Z (100 * Z.of_nat (cnt (b_inner h) es))
                    + inject_Z (100 * Z.of_nat (cnt (b_cross h) es)))%Q; [field; auto|].
      unfold d. rewrite <- Hs. rewrite !Nat2Z.inj_add. rewrite <- !inject_Z_plus.
      change 100%Q with (inject_Z 100). rewrite <- inject_Z_mult. apply inject_Z_injective. lia.
    - intros ->. reflexivity.
  Qed.

  (* ---------------------------------------------------------------- *)
  (** * Queries *)

  Lemma array_mat : forall n g i, i < n ->
    zone_cross_edges_array (mkZam n (mat (S n) g)) (Z.of_nat i) =
    Ok (map (fun j => if (j =? n) || (j =? i) then 0 else g i j) (seq 0 (S n))).
  Proof.
    intros n g i Hi. unfold zone_cross_edges_array. cbn [zm zc].
    rewrite (py_get_nat _ _ _ (map (g i) (seq 0 (S n)))) by (unfold mat; apply nth_error_map_seq; lia).
    cbn [rbind]. rewrite py_set_nat by (rewrite map_length, seq_length; lia). cbn [rbind].
    rewrite list_set_map_seq by lia.
    rewrite py_set_nat by (rewrite map_length, seq_length; lia). f_equal.
    rewrite list_set_map_seq by lia. apply map_seq_ext. intros j Hj.
    destruct (j =? n), (j =? i); auto.
  Qed.

  Lemma py_max_ok : forall l, l <> [] -> exists m, py_max l = Ok m /\ In m l /\ (forall x, In x l -> x <= m).
  Proof.
    intros [|x l] Hne; [congruence|]. exists (fold_left Nat.max l x). split; [auto|].
    assert (G : forall l x, In (fold_left Nat.max l x) (x :: l) /\ forall y, In y (x :: l) -> y <= fold_left Nat.max l x).
    { clear. induction l as [|a l IH]; intros x; cbn [fold_left].
      - split; [simpl; auto|]. intros y [->|[]]. lia.
      - destruct (IH (Nat.max x a)) as [H1 H2]. split.
        + destruct H1 as [H1|H1]; [|simpl; auto]. rewrite <- H1.
          destruct (Nat.max_spec x a) as [[_ ->]|[_ ->]]; simpl; auto.
        + pose proof (H2 (Nat.max x a) ltac:(simpl; auto)).
          intros y [->|[->|Hy]]; [lia|lia|]. apply H2. simpl; auto. }
    apply G.
  Qed.

  Lemma filter_map_seq : forall A (p : A -> bool) (f : nat -> A) n,
    length (filter p (map f (seq 0 n))) = sum n (fun i => ind (p (f i))).
  Proof.
    intros A p f n. unfold sum. generalize (seq 0 n) as l. induction l as [|x l IH]; auto.
    cbn [map filter]. rewrite lsum_cons, <- IH. destruct (p (f x)); cbn; auto.
  Qed.

  Lemma map_nth_seq : forall (zs : list nat) (d : nat), map (fun i => nth i zs d) (seq 0 (length zs)) = zs.
  Proof.
    intros zs d. induction zs as [|z zs IH]; auto. cbn [length seq map nth]. f_equal.
    rewrite <- seq_shift, map_map. auto.
  Qed.

  Lemma queries_main : forall h es zs a i z, NoDup zs -> edges_in_zones h es zs -> zam_build h es zs = Ok a ->
    nth_error zs i = Some z ->
    (exists k, zone_cross_edges_count a (Z.of_nat i) = Ok k /\
       counts (fun e => is_cross h e = Ok true /\ exists f, In f (e_faces h e) /\ f_zone h f = Some z) es k) /\
    (exists k, zone_cross_borders_count a (Z.of_nat i) = Ok k /\
       counts (fun y => y <> z /\ exists e, In e es /\ joins h z y e) zs k) /\
    (exists m, max_cross_border_len a = Ok m /\
       (forall x y k, In x zs -> In y zs -> x <> y -> counts (joins h x y) es k -> k <= m) /\
       (m = 0 \/ exists x y, In x zs /\ In y zs /\ x <> y /\ counts (joins h x y) es m)).
  Proof.
    intros h es zs a i z Hnd He Ha Hz. rewrite (zam_build_mat h zs Hnd es He) in Ha. inv Ha.
    set (n := length zs). set (g := fun x y => cnt (hitb h zs x y) es).
    assert (Hi : i < n) by (apply nth_error_Some; congruence).
    assert (Hh : forall e, In e es -> exists i j, hit h zs e = Some (i, j)).
    { intros e Hin. pose proof (hit_total h zs Hnd es e He Hin). destruct (hit h zs e) as [[x y]|]; [eauto|congruence]. }
    assert (Hnn : forall x, x < n -> exists y, nth_error zs x = Some y).
    { intros x Hx. destruct (nth_error zs x) eqn:E; [eauto|]. apply nth_error_None in E. unfold n in Hx. lia. }
    assert (Hinj : forall x y w, nth_error zs x = Some w -> nth_error zs y = Some w -> x = y).
    { intros x y w Hx Hy. eapply (proj1 (NoDup_nth_error zs)); eauto; [apply nth_error_Some|]; congruence. }
    split; [|split].
    - unfold zone_cross_edges_count. rewrite array_mat by auto. cbn [rbind]. eexists. split; [reflexivity|].
      set (q := fun e => b_cross h e && existsb (fun f => ozone_eqb (f_zone h f) (Some z)) (e_faces h e)).
      replace (list_sum _) with (cnt q es).
      + apply cnt_counts. intros e Hin. unfold q. rewrite andb_true_iff, existsb_exists.
        unfold b_cross, is_cross. destruct (He e Hin) as [Hl _].
        assert (Hoz : forall f, ozone_eqb (f_zone h f) (Some z) = true <-> f_zone h f = Some z).
        { intros f. destruct (f_zone h f); cbn; [rewrite Nat.eqb_eq|]; split; congruence. }
        split.
        * intros [H1 (f & Hf & Ef)]. split; [|exists f; split; [auto|apply Hoz; auto]].
          destruct (e_faces h e) as [|f1 [|f2 [|f3 r]]]; cbn in Hl; try lia; congruence.
        * intros [H1 (f & Hf & Ef)]. split; [|exists f; split; [auto|apply Hoz; auto]].
          destruct (e_faces h e) as [|f1 [|f2 [|f3 r]]]; cbn in Hl; try lia; congruence.
      + symmetry.
        change (sum (S n) (fun j => if (j =? n) || (j =? i) then 0 else cnt (hitb h zs i j) es) = cnt q es).
        transitivity (sum (S n) (fun j => cnt (fun e => negb ((j =? n) || (j =? i)) && hitb h zs i j e) es)).
        { apply lsum_map_ext. intros j _. destruct ((j =? n) || (j =? i)); cbn [negb andb]; [|auto].
          unfold cnt. clear. induction es; auto. }
        apply sum_cnt. intros e Hin. destruct (Hh e Hin) as (x & y & Eh).
        pose proof (hit_range h zs e x y Eh) as (Hx & Hy & _). fold n in Hx, Hy.
        unfold q, hitb. rewrite Eh. unfold hit in Eh. unfold b_cross.
        destruct (e_faces h e) as [|f [|k [|k' r]]]; try discriminate.
        * destruct (zone_index h zs f) as [i0|] eqn:E1; inv Eh. cbn [andb ind]. unfold sum.
          apply lsum_zero. intros j Hj. apply in_seq in Hj.
          destruct (Nat.eqb_spec j n); [auto|]. destruct (Nat.eqb_spec j i); [auto|]. cbn [orb negb andb].
          unfold n in *.
          destruct (Nat.eqb_spec i (length zs)); [lia|]. destruct (Nat.eqb_spec j (length zs)); [lia|].
          rewrite andb_false_r. auto.
        * destruct (zone_index h zs f) eqn:E1; [|discriminate].
          destruct (zone_index h zs k) eqn:E2; inv Eh.
          rewrite (hit_same h zs f k x y) by auto.
          apply zone_index_inv in E1 as (z1 & N1 & Z1 & L1). apply zone_index_inv in E2 as (z2 & N2 & Z2 & L2).
          fold n in L1, L2. cbn [existsb]. rewrite Z1, Z2. cbn [ozone_eqb].
          assert (Ex : (z1 =? z) = (i =? x)).
          { destruct (Nat.eqb_spec i x) as [->|Hne]; [apply Nat.eqb_eq; congruence|].
            apply Nat.eqb_neq. intros ->. eauto. }
          assert (Ey : (z2 =? z) = (i =? y)).
          { destruct (Nat.eqb_spec i y) as [->|Hne]; [apply Nat.eqb_eq; congruence|].
            apply Nat.eqb_neq. intros ->. eauto. }
          rewrite Ex, Ey, orb_false_r.
          destruct (Nat.eqb_spec x y) as [->|Hxy]; cbn [negb andb].
          -- unfold sum. apply lsum_zero. intros j Hj.
             destruct (Nat.eqb_spec j i) as [->|]; [rewrite orb_true_r; auto|].
             destruct (Nat.eqb_spec i y), (Nat.eqb_spec j y); subst; rewrite ?andb_false_r; auto; lia.
          -- destruct (Nat.eqb_spec i x) as [->|Hix].
             ++ rewrite (lsum_single _ (S n) y); [|lia|].
                ** destruct (Nat.eqb_spec y n); [lia|]. destruct (Nat.eqb_spec y x); [lia|].
                   rewrite Nat.eqb_refl. auto.
                ** intros j Hj Hjy. destruct (Nat.eqb_spec j y); [lia|].
                   destruct (Nat.eqb_spec x y); [lia|]. rewrite ?andb_false_r. auto.
             ++ destruct (Nat.eqb_spec i y) as [->|Hiy].
                ** rewrite (lsum_single _ (S n) x); [|lia|].
                   --- destruct (Nat.eqb_spec x n); [lia|]. destruct (Nat.eqb_spec x y); [lia|].
                       rewrite Nat.eqb_refl. auto.
                   --- intros j Hj Hjx. destruct (Nat.eqb_spec j x); [lia|]. cbn. rewrite ?andb_false_r. auto.
                ** cbn [orb ind]. unfold sum. apply lsum_zero. intros j _. rewrite ?andb_false_r. auto.
    - unfold zone_cross_borders_count. rewrite array_mat by auto. cbn [rbind].
      eexists. split; [reflexivity|].
      set (q := fun y => negb (y =? z) && existsb (fun e => match index_of (Nat.eqb y) zs with
                 | Some j => hitb h zs i j e | None => false end) es).
      replace (length _) with (cnt q zs).
      + apply cnt_counts. intros y Hy. apply In_nth_error in Hy as (j & Hj). unfold q.
        rewrite (index_of_nodup zs j y Hnd Hj). rewrite andb_true_iff, negb_true_iff, Nat.eqb_neq, existsb_exists.
        split; intros [H1 (e & He1 & He2)]; split; auto; exists e; split; auto;
          apply (hitb_joins h zs Hnd i j z y e); auto.
      + rewrite filter_map_seq. unfold sum. rewrite seq_S, map_app, list_sum_app.
        cbn [map Nat.add]. rewrite lsum_cons, Nat.eqb_refl. cbn [orb Nat.ltb Nat.leb ind list_sum fold_right].
        rewrite Nat.add_0_r.
        rewrite <- (map_nth_seq zs 0) at 1. fold n. unfold cnt. rewrite filter_map_seq. unfold sum.
        apply lsum_map_ext. intros j Hj. apply in_seq in Hj. f_equal.
        destruct (Hnn j ltac:(lia)) as (y & Hjy).
        assert (En : nth j zs 0 = y) by (apply nth_error_nth; auto). rewrite En.
        unfold q. rewrite (index_of_nodup zs j y Hnd Hjy).
        destruct (Nat.eqb_spec j n); [lia|]. cbn [orb].
        assert (Ez : (y =? z) = (j =? i)).
        { destruct (Nat.eqb_spec j i) as [->|Hne]; [apply Nat.eqb_eq; congruence|].
          apply Nat.eqb_neq. intros ->. eauto. }
        rewrite Ez. destruct (j =? i); auto. cbn [negb andb]. unfold g, cnt.
        clear. induction es as [|e es IH]; auto. cbn [existsb filter].
        destruct (hitb h zs i j e); auto.
    - unfold max_cross_border_len. cbn [zc].
      assert (Hrow : forall x, x < n -> exists m,
        zone_max_cross_border_len (mkZam n (mat (S n) g)) (Z.of_nat x) = Ok m /\
        (forall y, y < n -> y <> x -> g x y <= m) /\
        (m = 0 \/ exists y, y < n /\ y <> x /\ m = g x y)).
      { intros x Hx. unfold zone_max_cross_border_len. rewrite array_mat by auto. cbn [rbind].
        destruct (py_max_ok (map (fun j => if (j =? n) || (j =? x) then 0 else g x j) (seq 0 (S n))))
          as (m & Em & Hin & Hle); [discriminate|]. exists m. split; [auto|]. split.
        - intros y Hy Hne. apply Hle. apply in_map_iff. exists y. split; [|apply in_seq; lia].
          destruct (Nat.eqb_spec y n); [lia|]. destruct (Nat.eqb_spec y x); [lia|]. auto.
        - apply in_map_iff in Hin as (y & Ey & Hy). apply in_seq in Hy.
          destruct (Nat.eqb_spec y n); [auto|]. destruct (Nat.eqb_spec y x); [auto|]. cbn in Ey.
          right. exists y. split; [lia|]. auto. }
      assert (Hall : forall l, (forall x, In x l -> x < n) -> exists ms,
        rmap (fun x => zone_max_cross_border_len (mkZam n (mat (S n) g)) (Z.of_nat x)) l = Ok ms /\
        length ms = length l /\
        (forall x y, In x l -> y < n -> y <> x -> exists m, In m ms /\ g x y <= m) /\
        (forall m, In m ms -> m = 0 \/ exists x y, x < n /\ y < n /\ x <> y /\ m = g x y)).
      { induction l as [|x l IH]; intros Hl.
        - exists []. split; [auto|]. split; [auto|]. split; [intros x y []|intros m []].
        - destruct IH as (ms & Ems & Elen & H1 & H2); [intros; apply Hl; simpl; auto|].
          destruct (Hrow x) as (m & Em & H3 & H4); [apply Hl; simpl; auto|].
          exists (m :: ms). cbn [rmap]. rewrite Em. cbn [rbind]. rewrite Ems. cbn [rbind].
          split; [auto|]. split; [cbn; auto|]. split.
          + intros x' y [->|Hx'] Hy Hne; [exists m; split; [simpl; auto|apply H3; auto]|].
            destruct (H1 x' y Hx' Hy Hne) as (m' & Hm' & Hle). exists m'. split; [simpl; auto|auto].
          + intros m' [<-|Hm']; [|auto]. destruct H4 as [->|(y & Hy & Hne & ->)]; [auto|].
            right. exists x, y. split; [apply Hl; simpl; auto|]. auto. }
      destruct (Hall (seq 0 n)) as (ms & Ems & Elen & H1 & H2); [intros x Hx; apply in_seq in Hx; lia|].
      fold n. rewrite Ems. cbn [rbind].
      destruct (py_max_ok ms) as (m & Em & Hin & Hle).
      { intros ->. rewrite seq_length in Elen. cbn in Elen. lia. }
      exists m. split; [auto|].
      assert (Hg : forall x y w v, nth_error zs x = Some w -> nth_error zs y = Some v ->
        counts (joins h w v) es (g x y)).
      { intros x y w v Hx Hy. apply cnt_counts. intros e _. apply (hitb_joins h zs Hnd x y w v e); auto. }
      split.
      + intros w v k Hw Hv Hne Hk. apply In_nth_error in Hw as (x & Hx). apply In_nth_error in Hv as (y & Hy).
        rewrite (counts_unique _ _ _ _ _ Hk (Hg x y w v Hx Hy)).
        destruct (H1 x y) as (m' & Hm' & Hle').
        * apply in_seq. split; [lia|]. apply nth_error_Some. congruence.
        * apply nth_error_Some. congruence.
        * intros ->. congruence.
        * specialize (Hle m' Hm'). lia.
      + destruct (H2 m Hin) as [->|(x & y & Hx & Hy & Hne & ->)]; [auto|]. right.
        destruct (Hnn x Hx) as (w & Hw). destruct (Hnn y Hy) as (v & Hv).
        exists w, v. split; [eapply nth_error_In; eauto|]. split; [eapply nth_error_In; eauto|].
        split; [intros ->; apply Hne; eauto|]. apply Hg; auto.
  Qed.

  Lemma zone_max_main : forall h es zs a i z, NoDup zs -> edges_in_zones h es zs -> zam_build h es zs = Ok a ->
    nth_error zs i = Some z ->
    exists m, zone_max_cross_border_len a (Z.of_nat i) = Ok m /\
      (forall y k, In y zs -> y <> z -> counts (joins h z y) es k -> k <= m) /\
      (m = 0 \/ exists y, In y zs /\ y <> z /\ counts (joins h z y) es m).
  Proof.
    intros h es zs a i z Hnd He Ha Hz. rewrite (zam_build_mat h zs Hnd es He) in Ha. inv Ha.
    set (n := length zs). set (g := fun x y => cnt (hitb h zs x y) es).
    assert (Hi : i < n) by (apply nth_error_Some; congruence).
    assert (Hg : forall y v, nth_error zs y = Some v -> counts (joins h z v) es (g i y)).
    { intros y v Hy. apply cnt_counts. intros e _. apply (hitb_joins h zs Hnd i y z v e); auto. }
    unfold zone_max_cross_border_len. rewrite array_mat by auto. cbn [rbind].
    destruct (py_max_ok (map (fun j => if (j =? n) || (j =? i) then 0 else g i j) (seq 0 (S n))))
      as (m & Em & Hin & Hle); [discriminate|]. exists m. split; [auto|]. split.
    - intros v k Hv Hne Hk. apply In_nth_error in Hv as (y & Hy).
      assert (y < n) by (apply nth_error_Some; congruence).
      rewrite (counts_unique _ _ _ _ _ Hk (Hg y v Hy)). apply Hle. apply in_map_iff. exists y.
      split; [|apply in_seq; lia].
      destruct (Nat.eqb_spec y n); [lia|]. destruct (Nat.eqb_spec y i); [congruence|]. auto.
    - apply in_map_iff in Hin as (y & Ey & Hy). apply in_seq in Hy.
      destruct (Nat.eqb_spec y n); [auto|]. destruct (Nat.eqb_spec y i); [auto|]. cbn in Ey.
      right. destruct (nth_error zs y) as [v|] eqn:Ev.
      2:{ apply nth_error_None in Ev. unfold n in *. lia. }
      exists v. split; [eapply nth_error_In; eauto|]. split; [|subst m; auto].
      intros ->. apply n1. eapply (proj1 (NoDup_nth_error zs)); eauto; [apply nth_error_Some|]; congruence.
  Qed.

  (** A consistent decomposed grid meets the hypotheses. *)
  Lemma grid_edges_in_zones : forall h, grid_ok h ->
    NoDup (g_zones h) /\ edges_in_zones h (g_edges h) (g_zones h).
  Proof.
    intros h [Ht Hz]. split; [apply (zo_nd h Hz)|]. intros e He.
    destruct (t_edge_faces h Ht e He) as (Hl & _ & Hi). split; [lia|].
    intros f Hf. apply (zo_cover h Hz). auto.
  Qed.
End ZamProofs.
