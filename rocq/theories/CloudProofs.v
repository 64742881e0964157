(** Proofs about boxes, clouds of triangles, the order of vectors and volumes. *)

From Coq Require Import Reals Bool Lra Lia List Permutation.
From Verif Require Import Py Geom GeomSpec GeomProofs.
Import ListNotations.
Open Scope R_scope.

(** ** Boxes *)

Lemma fold_min : forall l x, fold_left Rmin l x <= x /\ (forall y, In y l -> fold_left Rmin l x <= y) /\
  (fold_left Rmin l x = x \/ In (fold_left Rmin l x) l).
Proof.
  induction l as [|z l IH]; intros x; cbn; [split; [lra|]; split; [intros y []|auto]|].
  destruct (IH (Rmin x z)) as (H1 & H2 & H3). pose proof (Rmin_l x z). pose proof (Rmin_r x z).
  split; [lra|]. split; [intros y [<-|Hy]; [lra|auto]|].
  destruct H3 as [H3|H3]; auto. rewrite H3. unfold Rmin. destruct (Rle_dec x z); auto.
Qed.

Lemma fold_max : forall l x, x <= fold_left Rmax l x /\ (forall y, In y l -> y <= fold_left Rmax l x) /\
  (fold_left Rmax l x = x \/ In (fold_left Rmax l x) l).
Proof.
  induction l as [|z l IH]; intros x; cbn; [split; [lra|]; split; [intros y []|auto]|].
  destruct (IH (Rmax x z)) as (H1 & H2 & H3). pose proof (Rmax_l x z). pose proof (Rmax_r x z).
  split; [lra|]. split; [intros y [<-|Hy]; [lra|auto]|].
  destruct H3 as [H3|H3]; auto. rewrite H3. unfold Rmax. destruct (Rle_dec x z); auto.
Qed.

Lemma py_min_ok : forall l, l <> [] -> exists m, py_min l = Ok m /\ (forall y, In y l -> m <= y) /\ In m l.
Proof.
  intros [|x l] H; [congruence|]. exists (fold_left Rmin l x). destruct (fold_min l x) as (H1 & H2 & H3).
  split; [reflexivity|]. split; [intros y [<-|Hy]; auto|]. destruct H3 as [H3|H3]; [rewrite H3; left; auto|right; auto].
Qed.

Lemma py_max_ok : forall l, l <> [] -> exists m, py_max l = Ok m /\ (forall y, In y l -> y <= m) /\ In m l.
Proof.
  intros [|x l] H; [congruence|]. exists (fold_left Rmax l x). destruct (fold_max l x) as (H1 & H2 & H3).
  split; [reflexivity|]. split; [intros y [<-|Hy]; auto|]. destruct H3 as [H3|H3]; [rewrite H3; left; auto|right; auto].
Qed.

Lemma map_nonnil : forall A B (f : A -> B) l, l <> [] -> map f l <> [].
Proof. intros A B f [|x l] H; cbn; congruence. Qed.

Theorem box_of_ok : forall ps, ps <> [] -> exists b, box_of ps = Ok b /\
  (forall p, In p ps -> in_box b p) /\
  (forall b', (forall p, In p ps -> in_box b' p) -> box_within b b').
Proof.
  intros ps H.
  destruct (py_min_ok (map vx ps) (map_nonnil _ _ _ _ H)) as (x & Ex & X1 & X2).
  destruct (py_min_ok (map vy ps) (map_nonnil _ _ _ _ H)) as (y & Ey & Y1 & Y2).
  destruct (py_min_ok (map vz ps) (map_nonnil _ _ _ _ H)) as (z & Ez & Z1 & Z2).
  destruct (py_max_ok (map vx ps) (map_nonnil _ _ _ _ H)) as (x' & Ex' & X1' & X2').
  destruct (py_max_ok (map vy ps) (map_nonnil _ _ _ _ H)) as (y' & Ey' & Y1' & Y2').
  destruct (py_max_ok (map vz ps) (map_nonnil _ _ _ _ H)) as (z' & Ez' & Z1' & Z2').
  exists (Box3 x y z x' y' z'). unfold box_of. rewrite Ex, Ey, Ez, Ex', Ey', Ez'. split; [reflexivity|]. split.
  - intros p Hp. pose proof (in_map vx _ _ Hp). pose proof (in_map vy _ _ Hp). pose proof (in_map vz _ _ Hp).
    unfold in_box. cbn. auto 10.
  - intros b' Hb p (Px & Py & Pz). cbn in Px, Py, Pz.
    apply in_map_iff in X2 as (p1 & <- & K1), Y2 as (p2 & <- & K2), Z2 as (p3 & <- & K3),
      X2' as (p4 & <- & K4), Y2' as (p5 & <- & K5), Z2' as (p6 & <- & K6).
    pose proof (Hb _ K1) as (? & _ & _). pose proof (Hb _ K2) as (_ & ? & _). pose proof (Hb _ K3) as (_ & _ & ?).
    pose proof (Hb _ K4) as (? & _ & _). pose proof (Hb _ K5) as (_ & ? & _). pose proof (Hb _ K6) as (_ & _ & ?).
    unfold in_box. lra.
Qed.

Lemma box_of_empty : box_of [] = Raise EValueError.
Proof. reflexivity. Qed.

Theorem is_point_inside_ok : forall b p, is_point_inside b p = true <-> in_box b p.
Proof.
  intros b p. unfold is_point_inside, in_box. rewrite !andb_true_iff, !Rleb_true. tauto.
Qed.

(** A box with points. *)
Definition proper (b : box) : Prop := minx b <= maxx b /\ miny b <= maxy b /\ minz b <= maxz b.

Lemma box_box_iff : forall b o, is_potential_intersect_with_box b o = true <->
  minx o <= maxx b /\ minx b <= maxx o /\ miny o <= maxy b /\ miny b <= maxy o /\ minz o <= maxz b /\ minz b <= maxz o.
Proof.
  intros b o. unfold is_potential_intersect_with_box.
  destruct (Rltb (maxx b) (minx o)) eqn:E1; [apply Rltb_true in E1; cbn; split; [discriminate|lra]|apply Rltb_false in E1].
  destruct (Rltb (maxx o) (minx b)) eqn:E2; [apply Rltb_true in E2; cbn; split; [discriminate|lra]|apply Rltb_false in E2].
  destruct (Rltb (maxy b) (miny o)) eqn:E3; [apply Rltb_true in E3; cbn; split; [discriminate|lra]|apply Rltb_false in E3].
  destruct (Rltb (maxy o) (miny b)) eqn:E4; [apply Rltb_true in E4; cbn; split; [discriminate|lra]|apply Rltb_false in E4].
  destruct (Rltb (maxz b) (minz o)) eqn:E5; [apply Rltb_true in E5; cbn; split; [discriminate|lra]|apply Rltb_false in E5].
  destruct (Rltb (maxz o) (minz b)) eqn:E6; [apply Rltb_true in E6; cbn; split; [discriminate|lra]|apply Rltb_false in E6].
  cbn. split; auto. intros _. lra.
Qed.

Lemma mid_le : forall a b c d, a <= b -> c <= d -> c <= b -> a <= d -> a <= Rmax a c <= b /\ c <= Rmax a c <= d.
Proof. intros a b c d H1 H2 H3 H4. unfold Rmax. destruct (Rle_dec a c); lra. Qed.

(** Exact: the boxes have a common point. *)
Theorem box_box_ok : forall b o, proper b -> proper o ->
  (is_potential_intersect_with_box b o = true <-> exists p, in_box b p /\ in_box o p).
Proof.
  intros b o (B1 & B2 & B3) (O1 & O2 & O3). rewrite box_box_iff. split.
  - intros (H1 & H2 & H3 & H4 & H5 & H6).
    exists (V3 (Rmax (minx b) (minx o)) (Rmax (miny b) (miny o)) (Rmax (minz b) (minz o))).
    pose proof (mid_le (minx b) (maxx b) (minx o) (maxx o)). pose proof (mid_le (miny b) (maxy b) (miny o) (maxy o)).
    pose proof (mid_le (minz b) (maxz b) (minz o) (maxz o)). unfold in_box. cbn. intuition.
  - intros (p & (P1 & P2 & P3) & (Q1 & Q2 & Q3)). lra.
Qed.

Theorem box_box_sym : forall b o, is_potential_intersect_with_box b o = is_potential_intersect_with_box o b.
Proof.
  intros b o. destruct (is_potential_intersect_with_box b o) eqn:E1, (is_potential_intersect_with_box o b) eqn:E2; auto.
  - apply box_box_iff in E1. rewrite (proj2 (box_box_iff o b)) in E2; [discriminate|tauto].
  - apply box_box_iff in E2. rewrite (proj2 (box_box_iff b o)) in E1; [discriminate|tauto].
Qed.

Lemma convex2 : forall t a b, 0 <= t <= 1 -> Rmin a b <= (1 - t) * a + t * b <= Rmax a b.
Proof. intros t a b H. unfold Rmin, Rmax. destruct (Rle_dec a b); split; nra. Qed.

Lemma on_segment_box : forall s x, on_segment (sa s) (sb s) x -> in_box (seg_box s) x.
Proof.
  intros s x (t & Ht & Hx & Hy & Hz). unfold in_box. cbn. rewrite Hx, Hy, Hz.
  repeat split; apply convex2; auto.
Qed.

Theorem box_segment_ok : forall b s, is_intersect_with_segment b s = false ->
  ~ exists x, in_box b x /\ on_segment (sa s) (sb s) x.
Proof.
  intros b s E (x & Hb & Hs). apply on_segment_box in Hs.
  change (is_potential_intersect_with_box b (seg_box s) = false) in E.
  rewrite (proj2 (box_box_iff b (seg_box s))) in E; [discriminate|]. destruct Hb as (? & ? & ?), Hs as (? & ? & ?). lra.
Qed.

Lemma convex3 : forall u v w a b c l r, 0 <= u -> 0 <= v -> 0 <= w -> u + v + w = 1 ->
  l <= a <= r -> l <= b <= r -> l <= c <= r -> l <= u * a + v * b + w * c <= r.
Proof. intros. split; nra. Qed.

Lemma in_triangle_box : forall bx a b c x, in_box bx a -> in_box bx b -> in_box bx c -> in_triangle a b c x -> in_box bx x.
Proof.
  intros bx a b c x (A1 & A2 & A3) (B1 & B2 & B3) (C1 & C2 & C3) (u & v & w & H1 & H2 & H3 & H4 & Hx & Hy & Hz).
  unfold in_box. rewrite Hx, Hy, Hz. split; [|split]; apply convex3; auto.
Qed.

(** ** Sorting *)

Lemma insert_by_perm : forall key t l, Permutation (insert_by key t l) (t :: l).
Proof.
  intros key t l. induction l as [|u l IH]; cbn; auto. destruct (Rleb (key t) (key u)); auto.
  rewrite IH. constructor.
Qed.

Lemma sort_by_perm : forall key l, Permutation (sort_by key l) l.
Proof. intros key l. induction l as [|t l IH]; cbn; auto. rewrite insert_by_perm. constructor. auto. Qed.

(** ** Clouds *)

Lemma separate_ok : forall l, (1 < length l)%nat -> exists l' a b, separate_triangles_list l = Ok (l', (a, b)) /\
  Permutation l' l /\ l' = a ++ b /\ length a = Nat.div (length l) 2.
Proof.
  intros l H. unfold separate_triangles_list. rewrite (proj2 (Nat.ltb_lt 1 (length l)) H). cbn [negb].
  destruct (box_of_ok (map centroid l)) as (b & Eb & _); [apply map_nonnil; destruct l; cbn in H; [lia|congruence]|].
  rewrite Eb. cbn [rbind]. cbv zeta. match goal with |- context [sorting_by_the_selected_axis l ?a] => set (ax := a) end.
  pose proof (sort_by_perm (fun t => coord (centroid t) ax) l) as P. fold (sorting_by_the_selected_axis l ax) in P.
  set (l' := sorting_by_the_selected_axis l ax) in *. clearbody l'.
  do 3 eexists. split; [reflexivity|]. split; auto. split; [symmetry; apply firstn_skipn|].
  rewrite firstn_length, (Permutation_length P). apply Nat.min_l. apply Nat.div_le_upper_bound; lia.
Qed.

Lemma part_pair : forall d c1 c2 b, part d (Cloud [] [c1; c2] b) -> d = Cloud [] [c1; c2] b \/ part d c1 \/ part d c2.
Proof. intros d c1 c2 b H. inversion H; subst; auto. destruct H2 as [<-|[<-|[]]]; auto. Qed.

Lemma part_leaf : forall d ts b, part d (Cloud ts [] b) -> d = Cloud ts [] b.
Proof. intros d ts b H. inversion H; subst; auto. destruct H2. Qed.

(** What is said about a cloud built from a list. *)
Definition built (l : list triangle) (c : cloud) : Prop :=
  Permutation (stored c) l /\
  forall d, part d c -> leaf_or_pair d /\ incl (stored d) l /\ stored d <> [] /\
    box_of (flat_map points (stored d)) = Ok (cloud_box d).

Lemma flat_points_perm : forall l l', Permutation l l' -> Permutation (flat_map points l) (flat_map points l').
Proof.
  intros l l' P. induction P; cbn [flat_map]; auto.
  - apply Permutation_app_head. auto.
  - rewrite !app_assoc. apply Permutation_app_tail. apply Permutation_app_comm.
  - etransitivity; eauto.
Qed.

Lemma py_min_perm : forall l l', Permutation l l' -> py_min l = py_min l'.
Proof.
  intros l l' P. destruct l as [|x l].
  - apply Permutation_nil in P. subst. auto.
  - destruct (py_min_ok (x :: l)) as (m & E & H1 & H2); [congruence|].
    destruct (py_min_ok l') as (m' & E' & H1' & H2').
    { intros ->. apply Permutation_sym, Permutation_nil in P. discriminate. }
    rewrite E, E'. f_equal. apply Rle_antisym.
    + apply H1. apply (Permutation_in _ (Permutation_sym P)). auto.
    + apply H1'. apply (Permutation_in _ P). auto.
Qed.

Lemma py_max_perm : forall l l', Permutation l l' -> py_max l = py_max l'.
Proof.
  intros l l' P. destruct l as [|x l].
  - apply Permutation_nil in P. subst. auto.
  - destruct (py_max_ok (x :: l)) as (m & E & H1 & H2); [congruence|].
    destruct (py_max_ok l') as (m' & E' & H1' & H2').
    { intros ->. apply Permutation_sym, Permutation_nil in P. discriminate. }
    rewrite E, E'. f_equal. apply Rle_antisym.
    + apply H1'. apply (Permutation_in _ P). auto.
    + apply H1. apply (Permutation_in _ (Permutation_sym P)). auto.
Qed.

Lemma box_of_perm : forall l l', Permutation l l' -> box_of l = box_of l'.
Proof.
  intros l l' P. unfold box_of.
  rewrite (py_min_perm _ _ (Permutation_map vx P)), (py_min_perm _ _ (Permutation_map vy P)), (py_min_perm _ _ (Permutation_map vz P)),
    (py_max_perm _ _ (Permutation_map vx P)), (py_max_perm _ _ (Permutation_map vy P)), (py_max_perm _ _ (Permutation_map vz P)).
  reflexivity.
Qed.

Lemma flat_points_nonnil : forall l, l <> [] -> flat_map points l <> [].
Proof. intros [|t l] H; [congruence|]. cbn. congruence. Qed.

Lemma build_cloud_ok : forall fuel l, l <> [] -> (length l <= fuel)%nat -> exists c, build_cloud fuel l = Ok c /\ built l c.
Proof.
  induction fuel as [|fuel IH]; intros l Hn Hl; [destruct l; [congruence|cbn in Hl; lia]|].
  cbn [build_cloud]. destruct (box_of_ok (flat_map points l) (flat_points_nonnil l Hn)) as (b & Eb & _).
  rewrite Eb. cbn [rbind]. destruct (Nat.ltb 1 (length l)) eqn:E1.
  - apply Nat.ltb_lt in E1. destruct (separate_ok l E1) as (l' & u & v & Es & P & -> & Lu). rewrite Es. cbn [rbind fst snd].
    pose proof (Permutation_length P) as Lp. rewrite app_length in Lp.
    assert (Hu : (1 <= length u)%nat).
    { rewrite Lu. apply Nat.div_le_lower_bound; lia. }
    assert (Hu2 : (length u < length l)%nat).
    { rewrite Lu. apply Nat.div_lt; lia. }
    assert (Hv2 : (length v < length l)%nat) by lia.
    destruct (IH u) as (c1 & E & B1 & Pt1); [destruct u; cbn in Hu; [lia|congruence]|lia|]. rewrite E. cbn [rbind].
    destruct (IH v) as (c2 & E' & B2 & Pt2); [intros ->; cbn in *; lia|lia|]. rewrite E'. cbn [rbind].
    eexists. split; [reflexivity|].
    assert (Pall : Permutation (stored (Cloud [] [c1; c2] b)) l).
    { cbn. rewrite app_nil_r. rewrite B1, B2. auto. }
    split; [auto|]. intros d Hd. apply part_pair in Hd as [->|[Hd|Hd]].
    + split; [right; exists c1, c2; auto|]. split; [intros x Hx; apply (Permutation_in _ Pall); auto|].
      split; [intros K; rewrite K in Pall; apply Permutation_nil in Pall; congruence|].
      cbn [cloud_box]. rewrite (box_of_perm _ _ (flat_points_perm _ _ Pall)). auto.
    + destruct (Pt1 d Hd) as (K1 & K2 & K3 & K4). split; auto. split; [|auto]. intros x Hx.
      apply (Permutation_in _ P). apply in_or_app. left. apply K2. auto.
    + destruct (Pt2 d Hd) as (K1 & K2 & K3 & K4). split; auto. split; [|auto]. intros x Hx.
      apply (Permutation_in _ P). apply in_or_app. right. apply K2. auto.
  - apply Nat.ltb_ge in E1. destruct l as [|t [|t' l]]; [congruence| |cbn in E1; lia].
    eexists. split; [reflexivity|]. split; [cbn; auto|]. intros d Hd. apply part_leaf in Hd as ->.
    split; [left; exists t; auto|]. split; [cbn; intros x Hx; auto|]. split; [cbn; congruence|]. cbn [cloud_box stored].
    rewrite app_nil_r. auto.
Qed.

Lemma build_cloud_empty : forall fuel, build_cloud fuel [] = Raise EValueError.
Proof. intros [|fuel]; reflexivity. Qed.

(** The box of a part contains the triangles of the part. *)
Lemma built_box : forall l c d t, built l c -> part d c -> In t (stored d) ->
  forall x, in_triangle (ta t) (tb t) (tc t) x -> in_box (cloud_box d) x.
Proof.
  intros l c d t (_ & B) Hd Ht x Hx. destruct (B d Hd) as (_ & _ & Hn & Eb).
  destruct (box_of_ok (flat_map points (stored d)) (flat_points_nonnil _ Hn)) as (b & Eb' & Hin & _).
  rewrite Eb in Eb'. injection Eb' as <-.
  apply (in_triangle_box _ (ta t) (tb t) (tc t)); auto; apply Hin; apply in_flat_map; exists t; cbn; auto.
Qed.

Theorem cloud_built : forall l, l <> [] -> exists c, triangles_cloud l = Ok c /\
  Permutation (stored c) l /\
  (forall d, part d c -> leaf_or_pair d /\
     forall t x, In t (stored d) -> in_triangle (ta t) (tb t) (tc t) x -> in_box (cloud_box d) x).
Proof.
  intros l Hl. destruct (build_cloud_ok (length l) l Hl (le_n _)) as (c & E & B). exists c. split; auto.
  pose proof B as (P & K). split; auto. intros d Hd. split; [apply K; auto|]. intros t x Ht Hx. eapply built_box; eauto.
Qed.

Lemma caller_list_ok : forall l, exists l', caller_list l = Ok l' /\ Permutation l' l.
Proof.
  intros l. unfold caller_list. destruct (Nat.ltb 1 (length l)) eqn:E; [|eauto].
  apply Nat.ltb_lt in E. destruct (separate_ok l E) as (l' & a & b & Es & P & _). rewrite Es. cbn. eauto.
Qed.

(** Induction over clouds. *)
Lemma cloud_ind' : forall P : cloud -> Prop,
  (forall ts ss b, Forall P ss -> P (Cloud ts ss b)) -> forall c, P c.
Proof.
  intros P H. fix IH 1. intros [ts ss b]. apply H. induction ss as [|c ss IHs]; constructor; [apply IH|apply IHs].
Qed.

Lemma first_intersection_run : forall s c, (forall d, part d c -> leaf_or_pair d) ->
  exists r, first_intersection s c = Ok r /\
    match r with
    | Some t => In t (stored c) /\ hits s t = true
    | None => forall t, In t (stored c) -> (forall d, part d c -> In t (stored d) -> is_intersect_with_segment (cloud_box d) s = true) ->
        hits s t = false
    end.
Proof.
  intros s c. induction c as [ts ss b IH] using cloud_ind'. intros Hp. cbn [first_intersection].
  destruct (is_intersect_with_segment b s) eqn:Eb; cbn [negb].
  2:{ exists None. split; auto. intros t Ht K. specialize (K _ (part_self _) Ht). cbn in K. congruence. }
  destruct (Hp _ (part_self _)) as [(t & -> & ->)|(c1 & c2 & -> & ->)].
  - cbn. destruct (hits s t) eqn:E; eexists; (split; [reflexivity|]); cbn; auto.
    intros t' [<-|[]] _. auto.
  - cbn [is_list rbind]. inversion IH as [|? ? H1 IH']. subst. inversion IH' as [|? ? H2 _]. subst.
    destruct H1 as (r1 & E1 & R1). { intros d Hd. apply Hp. apply part_sub with c1; cbn; auto. }
    rewrite E1. cbn [rbind]. destruct r1 as [t|].
    { exists (Some t). split; auto. split; [|tauto]. cbn. apply in_or_app. left. tauto. }
    destruct H2 as (r2 & E2 & R2). { intros d Hd. apply Hp. apply part_sub with c2; cbn; auto. }
    rewrite E2. cbn [rbind]. destruct r2 as [t|].
    { exists (Some t). split; auto. split; [|tauto]. cbn. rewrite app_nil_r. apply in_or_app. right. tauto. }
    exists None. split; auto. intros t Ht K. cbn in Ht. rewrite app_nil_r in Ht. apply in_app_or in Ht as [Ht|Ht].
    + apply R1; auto. intros d Hd Hi. apply K; auto. apply part_sub with c1; cbn; auto.
    + apply R2; auto. intros d Hd Hi. apply K; auto. apply part_sub with c2; cbn; auto.
Qed.

Lemma box_of_common : forall l c d t s x, built l c -> part d c -> In t (stored d) -> common t s x ->
  is_intersect_with_segment (cloud_box d) s = true.
Proof.
  intros l c d t s x B Hd Ht [Hx Hs]. destruct (is_intersect_with_segment (cloud_box d) s) eqn:E; auto.
  exfalso. apply (box_segment_ok _ _ E). exists x. split; auto. eapply built_box; eauto.
Qed.

(** For every segment in general position towards all triangles. *)
Theorem first_intersection_ok : forall l s, l <> [] -> (forall t, In t l -> eps10 <= Rabs (spanned t s)) ->
  exists c r, triangles_cloud l = Ok c /\ first_intersection s c = Ok r /\
    match r with
    | Some t => In t l /\ exists x, common t s x
    | None => forall t x, In t l -> ~ common t s x
    end.
Proof.
  intros l s Hl Hg. destruct (build_cloud_ok (length l) l Hl (le_n _)) as (c & E & B). exists c.
  pose proof B as (P & K).
  destruct (first_intersection_run s c) as (r & Er & R); [intros d Hd; apply K; auto|].
  exists r. split; auto. split; auto. destruct r as [t|].
  - destruct R as [Ht Hh]. assert (Hi : In t l) by (apply (Permutation_in _ P); auto). split; auto.
    unfold hits in Hh. destruct (segment_general t s (Hg t Hi)) as [Hc _].
    destruct (intersection_with_segment t s) as [|x r]; [discriminate|]. exists x. apply Hc. left. auto.
  - intros t x Ht Hx. assert (Hi : In t (stored c)) by (apply (Permutation_in _ (Permutation_sym P)); auto).
    assert (Hh : hits s t = false).
    { apply R; auto. intros d Hd Hd'. eapply box_of_common; eauto. }
    unfold hits in Hh. destruct (segment_general t s (Hg t Ht)) as [Hc _]. apply Hc in Hx.
    destruct (intersection_with_segment t s); [destruct Hx|discriminate].
Qed.

(** For every segment: nothing found by the test of single triangles is lost, provided that
    the found point is a common point. *)
Theorem first_intersection_any : forall l s, l <> [] -> exists c r, triangles_cloud l = Ok c /\ first_intersection s c = Ok r /\
    match r with
    | Some t => In t l /\ intersection_with_segment t s <> []
    | None => forall t x, In t l -> In x (intersection_with_segment t s) -> ~ common t s x
    end.
Proof.
  intros l s Hl. destruct (build_cloud_ok (length l) l Hl (le_n _)) as (c & E & B). exists c.
  pose proof B as (P & K).
  destruct (first_intersection_run s c) as (r & Er & R); [intros d Hd; apply K; auto|].
  exists r. split; auto. split; auto. destruct r as [t|].
  - destruct R as [Ht Hh]. split; [apply (Permutation_in _ P); auto|]. unfold hits in Hh. intros Q. rewrite Q in Hh. discriminate.
  - intros t x Ht Hin Hx. assert (Hi : In t (stored c)) by (apply (Permutation_in _ (Permutation_sym P)); auto).
    assert (Hh : hits s t = false).
    { apply R; auto. intros d Hd Hd'. eapply box_of_common; eauto. }
    unfold hits in Hh. destruct (intersection_with_segment t s); [destruct Hin|discriminate].
Qed.
