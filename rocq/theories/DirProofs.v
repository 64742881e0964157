(** Proofs about weighted sums and directions of ice growth. *)

From Coq Require Import ZArith Reals Bool Lra Lia List Permutation.
From Verif Require Import Py Geom GeomSpec GeomProofs CloudProofs GeomMore Remesh RemeshSpec RemeshProofs.
Import ListNotations.
Open Scope R_scope.

Lemma fold_vadd : forall l a, fold_left vadd l a = V3 (vx a + total vx l) (vy a + total vy l) (vz a + total vz l).
Proof.
  induction l as [|x l IH]; intros a; cbn [fold_left total].
  - apply vect_eq; cbn; ring.
  - rewrite IH. apply vect_eq; cbn; ring.
Qed.

Lemma total_scale : forall A (f : A -> R) c l, total (fun x => f x * c) l = total f l * c.
Proof. induction l as [|x l IH]; cbn; [ring|]. rewrite IH. ring. Qed.

Lemma total_plus : forall A (f h : A -> R) l, total (fun x => f x + h x) l = total f l + total h l.
Proof. induction l as [|x l IH]; cbn; [ring|]. rewrite IH. ring. Qed.

Lemma total_map : forall A B (f : B -> R) (h : A -> B) l, total f (map h l) = total (fun x => f (h x)) l.
Proof. induction l as [|x l IH]; cbn; auto. rewrite IH. auto. Qed.

(** The product with a fixed vector. *)
Lemma dot_fold : forall d l, dot d (fold_left vadd l (V3 0 0 0)) = total (dot d) l.
Proof.
  intros d l. rewrite fold_vadd. unfold dot. cbn [vx vy vz].
  induction l as [|x l IH]; cbn [total]; [ring|]. rewrite <- IH. ring.
Qed.

Lemma dot_vmul : forall d a k, dot d (vmul a k) = dot d a * k.
Proof. intros. unfold dot, vmul. cbn. ring. Qed.

Lemma total_pos : forall (w : list R), w <> [] -> (forall x, In x w -> 0 < x) -> 0 < rsum w.
Proof.
  intros w H P. destruct w as [|x r]; [contradiction|]. rewrite rsum_cons. pose proof (P x (or_introl eq_refl)).
  assert (0 <= rsum r); [|lra]. rewrite <- (map_id r), rsum_total. apply total_nonneg. intros y Hy.
  apply Rlt_le, P. right. auto.
Qed.

Lemma wsum_bound : forall d c a w, length a = length w -> (forall x, In x w -> 0 < x) -> (forall x, In x a -> dot d x <= c) ->
  total (dot d) (zipwith a w vmul) <= c * rsum w.
Proof.
  intros d c. induction a as [|x a IH]; intros [|y w] L P H; try discriminate.
  - cbn. unfold rsum. cbn. lra.
  - cbn [zipwith combine map total]. change (map _ (combine a w)) with (zipwith a w vmul). cbn [fst snd].
    rewrite rsum_cons, dot_vmul. pose proof (P y (or_introl eq_refl)). pose proof (H x (or_introl eq_refl)).
    assert (total (dot d) (zipwith a w vmul) <= c * rsum w).
    { apply IH; [injection L; auto|intros; apply P; right; auto|intros; apply H; right; auto]. }
    assert (dot d x * y <= c * y) by (apply Rmult_le_compat_r; lra). lra.
Qed.

(** C61: a weighted sum is found and lies in every half-space that contains the vectors. *)
Theorem wsum_convex : forall a w, a <> [] -> length a = length w -> (forall x, In x w -> 0 < x) ->
  exists v, wsum a w = Ok v /\ forall d c, (forall x, In x a -> dot d x <= c) -> dot d v <= c.
Proof.
  intros a w N L P. assert (W : w <> []) by (destruct w, a; try discriminate; contradiction).
  pose proof (total_pos w W P) as S. unfold wsum, vdivr.
  replace (Reqb (rsum w) 0) with false by (symmetry; apply Reqb_false; lra). eexists. split; [reflexivity|].
  intros d c H. rewrite dot_vmul, dot_fold. pose proof (wsum_bound d c a w L P H) as B.
  replace c with (c * rsum w * (1 / rsum w)) by (field; lra). apply Rmult_le_compat_r; auto.
  apply Rlt_le. unfold Rdiv. rewrite Rmult_1_l. apply Rinv_0_lt_compat. auto.
Qed.

(** C61: in every box with the vectors. *)
Theorem wsum_box : forall a w v b, length a = length w -> (forall x, In x w -> 0 < x) -> a <> [] -> wsum a w = Ok v ->
  (forall x, In x a -> in_box b x) -> in_box b v.
Proof.
  intros a w v b L P N E H. destruct (wsum_convex a w N L P) as (v' & E' & C). rewrite E in E'. injection E' as <-.
  pose proof (C (V3 1 0 0) (maxx b)) as X1. pose proof (C (V3 (-1) 0 0) (- minx b)) as X2.
  pose proof (C (V3 0 1 0) (maxy b)) as Y1. pose proof (C (V3 0 (-1) 0) (- miny b)) as Y2.
  pose proof (C (V3 0 0 1) (maxz b)) as Z1. pose proof (C (V3 0 0 (-1)) (- minz b)) as Z2.
  unfold dot in *. cbn [vx vy vz] in *.
  assert (B : forall x, In x a -> minx b <= vx x <= maxx b /\ miny b <= vy x <= maxy b /\ minz b <= vz x <= maxz b) by (apply H).
  unfold in_box.
  assert (Q1 : 1 * vx v + 0 * vy v + 0 * vz v <= maxx b) by (apply X1; intros x Hx; destruct (B x Hx) as (? & ? & ?); lra).
  assert (Q2 : -1 * vx v + 0 * vy v + 0 * vz v <= - minx b) by (apply X2; intros x Hx; destruct (B x Hx) as (? & ? & ?); lra).
  assert (Q3 : 0 * vx v + 1 * vy v + 0 * vz v <= maxy b) by (apply Y1; intros x Hx; destruct (B x Hx) as (? & ? & ?); lra).
  assert (Q4 : 0 * vx v + -1 * vy v + 0 * vz v <= - miny b) by (apply Y2; intros x Hx; destruct (B x Hx) as (? & ? & ?); lra).
  assert (Q5 : 0 * vx v + 0 * vy v + 1 * vz v <= maxz b) by (apply Z1; intros x Hx; destruct (B x Hx) as (? & ? & ?); lra).
  assert (Q6 : 0 * vx v + 0 * vy v + -1 * vz v <= - minz b) by (apply Z2; intros x Hx; destruct (B x Hx) as (? & ? & ?); lra).
  lra.
Qed.

(** C61: equal vectors. *)
Theorem wsum_equal : forall a w v, length a = length w -> (forall x, In x w -> 0 < x) -> a <> [] ->
  (forall x, In x a -> x = v) -> wsum a w = Ok v.
Proof.
  intros a w v L P N H. destruct (wsum_convex a w N L P) as (u & E & _). rewrite E. f_equal.
  pose proof (wsum_box a w u (Box3 (vx v) (vy v) (vz v) (vx v) (vy v) (vz v)) L P N E) as B.
  assert (in_box (Box3 (vx v) (vy v) (vz v) (vx v) (vy v) (vz v)) u).
  { apply B. intros x Hx. rewrite (H x Hx). unfold in_box. cbn. lra. }
  unfold in_box in *. cbn in *. apply vect_eq; lra.
Qed.

(** C61: no vectors, no sum. *)
Theorem wsum_nothing : forall a, wsum a [] = Raise EZeroDivisionError.
Proof. intros a. unfold wsum, vdivr, rsum. cbn. replace (Reqb 0 0) with true by (symmetry; apply Reqb_true; auto). auto. Qed.

(** ** Length of directions *)

Lemma dot_self : forall a, dot a a = vmod a * vmod a.
Proof. intros a. unfold vmod. rewrite sqrt_sqrt by apply mod2_nonneg. auto. Qed.

Lemma cauchy : forall a b, dot a b <= vmod a * vmod b.
Proof.
  intros a b. pose proof (vmod_nonneg a) as A. pose proof (vmod_nonneg b) as B.
  destruct (Rle_or_lt (dot a b) 0) as [H|H]; [pose proof (Rmult_le_pos _ _ A B); lra|].
  apply Rsqr_incr_0_var; [|apply Rmult_le_pos; auto]. unfold Rsqr.
  replace (vmod a * vmod b * (vmod a * vmod b)) with ((vmod a * vmod a) * (vmod b * vmod b)) by ring.
  rewrite <- !dot_self. unfold dot.
  destruct a as [a1 a2 a3], b as [b1 b2 b3]. cbn [vx vy vz].
  pose proof (Rle_0_sqr (a1 * b2 - a2 * b1)) as S1. pose proof (Rle_0_sqr (a1 * b3 - a3 * b1)) as S2.
  pose proof (Rle_0_sqr (a2 * b3 - a3 * b2)) as S3. unfold Rsqr in *. nra.
Qed.

Lemma vmod_vmul : forall a k, 0 <= k -> vmod (vmul a k) = vmod a * k.
Proof.
  intros a k H. unfold vmod, mod2. replace (dot (vmul a k) (vmul a k)) with (dot a a * (k * k)) by (unfold dot, vmul; cbn; ring).
  rewrite sqrt_mult; [|apply mod2_nonneg|nra]. rewrite sqrt_square; auto.
Qed.

Lemma orth_ok : forall a n, orth a = Ok n -> vmod a <> 0 /\ n = vmul a (1 / vmod a) /\ vmod n = 1.
Proof.
  intros a n H. unfold orth, vdivr in H. destruct (Reqb (vmod a) 0) eqn:E; [discriminate|]. apply Reqb_false in E.
  injection H as <-. split; auto. split; auto. pose proof (vmod_nonneg a).
  rewrite vmod_vmul; [field; auto|]. unfold Rdiv. rewrite Rmult_1_l. apply Rlt_le, Rinv_0_lt_compat. lra.
Qed.

Lemma wsum_short : forall a w v, length a = length w -> (forall x, In x w -> 0 < x) -> (forall x, In x a -> vmod x <= 1) ->
  wsum a w = Ok v -> vmod v <= 1.
Proof.
  intros a w v L P H E. destruct a as [|x r].
  - destruct w; [|discriminate]. rewrite wsum_nothing in E. discriminate.
  - destruct (wsum_convex (x :: r) w ltac:(discriminate) L P) as (v' & E' & C). rewrite E in E'. injection E' as <-.
    pose proof (vmod_nonneg v) as V. destruct (Rle_or_lt (vmod v) 1) as [|K]; auto. exfalso.
    assert (D : dot v v <= vmod v).
    { apply C. intros y Hy. pose proof (cauchy v y). pose proof (H y Hy).
      assert (vmod v * vmod y <= vmod v * 1) by (apply Rmult_le_compat_l; auto). lra. }
    rewrite dot_self in D. nra.
Qed.

(** Directions after init_ice_dirs. *)
Lemma init_ice_dirs_ok : forall g s s', plain_topo g -> init_ice_dirs g s = Ok s' ->
  exists df dn, s' = w_ndir (w_fdir s df) dn /\
    (forall f, In f (faces g) -> normal_orth (get_triangle g s f) = Ok (df f)) /\
    (forall n, In n (nodes g) -> orth (fold_left vadd (map df (n_faces g n)) (V3 0 0 0)) = Ok (dn n)).
Proof.
  intros g s s' (Nf & Nn & _ & _) H. unfold init_ice_dirs in H.
  destruct (loop (faces g) _ s) as [s1|] eqn:E1; [|discriminate]. cbn [rbind] in H.
  assert (own1 : forall s v k, v k = f_dir s k ->
    (fun s f => normal_orth (get_triangle g s f)) (w_fdir s v) k = (fun s f => normal_orth (get_triangle g s f)) s k)
    by (intros [] v k _; reflexivity).
  destruct (loop_ok fd_fdir _ own1 _ _ _ Nf E1) as (df & -> & V1 & _). cbn beta in V1.
  assert (own2 : forall s v k, v k = n_dir s k ->
    (fun s n => orth (fold_left vadd (map (f_dir s) (n_faces g n)) (V3 0 0 0))) (w_ndir s v) k =
    (fun s n => orth (fold_left vadd (map (f_dir s) (n_faces g n)) (V3 0 0 0))) s k) by (intros [] v k _; reflexivity).
  destruct (loop_ok fd_ndir _ own2 _ _ _ Nn H) as (dn & -> & W1 & _). exists df, dn. split; auto.
Qed.

(** The value for one face in normals_smoothing. *)
Definition face_dir (o : options) (g : topo) (s : st) (f : nat) : res vect :=
  let ws := map (fun n => Rmax (nsmooth_s o * (1 - dot (f_dir s f) (n_dir s n))) (nsmooth_k o)) (corners g f) in
  wsum (map (n_dir s) (corners g f)) ws.

(** The value for one node. *)
Definition node_dir (g : topo) (s : st) (n : nat) : res vect :=
  do ws <- rmap (fun f => rdiv 1 (area (get_triangle g s f))) (n_faces g n);
  wsum (map (f_dir s) (n_faces g n)) ws.

Definition smooth_dirs (o : options) (g : topo) (s : st) : res st :=
  do s <- loop (faces g) (fun f s => do d <- face_dir o g s f; Ok (w_fdir s (put (f_dir s) f d))) s;
  loop (nodes g) (fun n s => do d <- node_dir g s n; Ok (w_ndir s (put (n_dir s) n d))) s.

Lemma repeated_ext : forall n b1 b2 s, (forall s, b1 s = b2 s) -> repeated n b1 s = repeated n b2 s.
Proof.
  induction n as [|n IH]; intros b1 b2 s H; cbn; auto. rewrite H. destruct (b2 s); cbn; auto.
Qed.

Lemma normals_smoothing_eq : forall o g s, normals_smoothing o g s =
  repeated (Z.to_nat (nsmooth_steps o)) (smooth_dirs o g) s.
Proof.
  intros o g s. unfold normals_smoothing. apply repeated_ext. intros s0. unfold smooth_dirs.
  change (loop (faces g) _ s0) with
    (loop (faces g) (fun f s => do d <- face_dir o g s f; Ok (w_fdir s (put (f_dir s) f d))) s0) at 1.
  destruct (loop (faces g) _ s0) as [s1|]; cbn [rbind]; auto. apply loop_ext. intros n s2. unfold node_dir.
  destruct (rmap _ _); reflexivity.
Qed.

Lemma rmap_areas : forall g s fs ws, rmap (fun f => rdiv 1 (area (get_triangle g s f))) fs = Ok ws ->
  length ws = length fs /\ forall x, In x ws -> 0 < x.
Proof.
  intros g s. induction fs as [|f fs IH]; intros ws H; cbn in H.
  - injection H as <-. split; auto. intros x [].
  - destruct (rdiv 1 _) as [q|] eqn:Eq; [|discriminate]. cbn [rbind] in H. destruct (rmap _ fs) as [qs|]; [|discriminate].
    cbn [rbind] in H. injection H as <-. destruct (IH qs eq_refl) as (L & P). split; [cbn; auto|].
    intros x [<-|Hx]; auto. apply rdiv_ok in Eq. destruct Eq as (A & ->). unfold Rdiv. rewrite Rmult_1_l.
    apply Rinv_0_lt_compat. pose proof (area_nonneg (get_triangle g s f)). lra.
Qed.

Lemma smooth_dirs_ok : forall o g s s', plain_topo g -> smooth_dirs o g s = Ok s' ->
  exists df dn, s' = w_ndir (w_fdir s df) dn /\
    (forall f, In f (faces g) -> face_dir o g s f = Ok (df f)) /\
    (forall n, In n (nodes g) -> node_dir g (w_fdir s df) n = Ok (dn n)).
Proof.
  intros o g s s' (Nf & Nn & _ & _) H. unfold smooth_dirs in H.
  destruct (loop (faces g) _ s) as [s1|] eqn:E1; [|discriminate]. cbn [rbind] in H.
  assert (own1 : forall s v k, v k = f_dir s k -> face_dir o g (w_fdir s v) k = face_dir o g s k).
  { intros [] v k Hv. unfold face_dir. cbn in *. rewrite Hv. reflexivity. }
  destruct (loop_ok fd_fdir _ own1 _ _ _ Nf E1) as (df & -> & V1 & _).
  assert (own2 : forall s v k, v k = n_dir s k -> node_dir g (w_ndir s v) k = node_dir g s k) by (intros [] v k _; reflexivity).
  destruct (loop_ok fd_ndir _ own2 _ _ _ Nn H) as (dn & -> & W1 & _). exists df, dn. split; auto.
Qed.

(** All directions of the grid are not longer than one. *)
Definition short (g : topo) (s : st) : Prop :=
  (forall f, In f (faces g) -> vmod (f_dir s f) <= 1) /\ (forall n, In n (nodes g) -> vmod (n_dir s n) <= 1).

Definition nodes_closed (g : topo) : Prop := forall f n, In f (faces g) -> In n (corners g f) -> In n (nodes g).

Lemma whole_closed : forall g, whole g -> nodes_closed g.
Proof.
  intros g (_ & _ & _ & Co & _) f k Hf Hk. unfold corners in Hk. destruct (f_nodes g f) as [[a b] c] eqn:E.
  destruct (Co f a b c Hf E) as (A & B & C). destruct Hk as [<-|[<-|[<-|[]]]]; auto.
Qed.

Lemma smooth_dirs_short : forall o g s s', plain_topo g -> nodes_closed g -> 0 < nsmooth_k o -> short g s ->
  smooth_dirs o g s = Ok s' -> short g s'.
Proof.
  intros o g s s' P NC K (S1 & S2) H. apply smooth_dirs_ok in H; auto. destruct H as (df & dn & -> & V & W).
  assert (F : forall f, In f (faces g) -> vmod (df f) <= 1).
  { intros f Hf. specialize (V f Hf). unfold face_dir in V. cbv zeta in V. eapply wsum_short; [| | |exact V].
    - rewrite !map_length. auto.
    - intros x Hx. apply in_map_iff in Hx. destruct Hx as (n & <- & _). pose proof (Rmax_r (nsmooth_s o * (1 - dot (f_dir s f) (n_dir s n))) (nsmooth_k o)). lra.
    - intros x Hx. apply in_map_iff in Hx. destruct Hx as (n & <- & Hn). apply S2. eapply NC; eauto. }
  split; [exact F|]. intros n Hn. specialize (W n Hn). unfold node_dir in W.
  destruct (rmap _ _) as [ws|] eqn:Ew; [|discriminate]. cbn [rbind] in W. apply rmap_areas in Ew. destruct Ew as (L & Pw).
  cbn. eapply wsum_short; [| | |exact W].
  - rewrite map_length. auto.
  - exact Pw.
  - intros x Hx. apply in_map_iff in Hx. destruct Hx as (f & <- & Hf). cbn. apply F. destruct P as (_ & _ & _ & Q). eapply Q; eauto.
Qed.

Lemma repeated_inv : forall (I : st -> Prop) b, (forall s s', I s -> b s = Ok s' -> I s') ->
  forall n s s', I s -> repeated n b s = Ok s' -> I s'.
Proof.
  intros I b H. induction n as [|n IH]; intros s s' S E; cbn [repeated] in E.
  - injection E as <-. auto.
  - destruct (b s) as [s1|] eqn:E1; [|discriminate]. cbn [rbind] in E. eauto.
Qed.

(** Directions stay not longer than one. *)
Theorem directions_short : forall o g s s1 s2, plain_topo g -> nodes_closed g -> 0 < nsmooth_k o ->
  init_ice_dirs g s = Ok s1 -> normals_smoothing o g s1 = Ok s2 -> short g s2.
Proof.
  intros o g s s1 s2 P NC K H1 H2. rewrite normals_smoothing_eq in H2.
  revert H2. apply (repeated_inv (short g)).
  - intros. eapply smooth_dirs_short; eauto.
  - apply init_ice_dirs_ok in H1; auto. destruct H1 as (df & dn & -> & V & W). split.
    + intros f Hf. cbn. specialize (V f Hf). unfold normal_orth in V. apply orth_ok in V. lra.
    + intros n Hn. cbn. specialize (W n Hn). apply orth_ok in W. lra.
Qed.

(** Smoothing of normals changes directions only. *)
Lemma normals_frame : forall o g s s', plain_topo g -> normals_smoothing o g s = Ok s' ->
  exists df dn, s' = w_ndir (w_fdir s df) dn.
Proof.
  intros o g s s' P H. rewrite normals_smoothing_eq in H. revert H.
  apply (repeated_inv (fun x => exists df dn, x = w_ndir (w_fdir s df) dn)).
  - intros a b (df & dn & ->) H. apply smooth_dirs_ok in H; auto. destruct H as (df' & dn' & -> & _).
    exists df', dn'. destruct s. reflexivity.
  - exists (f_dir s), (n_dir s). destruct s. reflexivity.
Qed.
