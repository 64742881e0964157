(** Proofs about remeshing: loops, shifts, exchange of ice, steps. *)

From Coq Require Import ZArith Reals Bool Lra Lia List Permutation.
From Verif Require Import Py Geom GeomSpec GeomProofs CloudProofs GeomMore Remesh RemeshSpec.
Import ListNotations.
Open Scope R_scope.

(** ** Loops *)

Lemma put_same : forall A (f : nat -> A) k v, put f k v k = v.
Proof. intros. unfold put. rewrite Nat.eqb_refl. auto. Qed.
Lemma put_other : forall A (f : nat -> A) k v i, i <> k -> put f k v i = f i.
Proof. intros. unfold put. destruct (Nat.eqb_spec i k); [contradiction|auto]. Qed.

(** A field and the way it is written. *)
Record field {A} (get : st -> nat -> A) (set : st -> (nat -> A) -> st) : Prop := Field {
  get_set : forall s v, get (set s v) = v;
  set_set : forall s v w, set (set s v) w = set s w;
  set_get : forall s, set s (get s) = s
}.
Arguments get_set {A get set}. Arguments set_set {A get set}. Arguments set_get {A get set}.

Ltac is_field := constructor; intros [? ? ? ? ? ? ? ? ? ? ? ? ?]; reflexivity.
Lemma fd_pos : field n_pos w_pos. Proof. is_field. Qed.
Lemma fd_ndir : field n_dir w_ndir. Proof. is_field. Qed.
Lemma fd_nheight : field n_height w_nheight. Proof. is_field. Qed.
Lemma fd_move : field n_move w_move. Proof. is_field. Qed.
Lemma fd_hi : field f_hi w_hi. Proof. is_field. Qed.
Lemma fd_target : field f_target w_target. Proof. is_field. Qed.
Lemma fd_rest : field f_rest w_rest. Proof. is_field. Qed.
Lemma fd_actual : field f_actual w_actual. Proof. is_field. Qed.
Lemma fd_fdir : field f_dir w_fdir. Proof. is_field. Qed.
Lemma fd_chunk : field f_chunk w_chunk. Proof. is_field. Qed.
Lemma fd_loc : field f_loc w_loc. Proof. is_field. Qed.
Lemma fd_height : field f_height w_height. Proof. is_field. Qed.
Lemma fd_saved : field f_saved w_saved. Proof. is_field. Qed.

(** A loop that writes one field of every object, where the value written depends on
    this field of no other object. *)
Section Loop.
  Context {A : Type} {get : st -> nat -> A} {set : st -> (nat -> A) -> st} (FD : field get set).
  Variable E : st -> nat -> res A.
  Hypothesis own : forall s v k, v k = get s k -> E (set s v) k = E s k.

  Let body k s := do v <- E s k; Ok (set s (put (get s) k v)).

  Lemma loop_from : forall l s v0 s', NoDup l -> (forall k, In k l -> v0 k = get s k) ->
    loop l body (set s v0) = Ok s' ->
    exists v, s' = set s v /\ (forall k, In k l -> E s k = Ok (v k)) /\ (forall k, ~ In k l -> v k = v0 k).
  Proof.
    induction l as [|x l IH]; intros s v0 s' N H R; cbn in R.
    - injection R as <-. exists v0. split; auto. split; [intros k []|auto].
    - apply NoDup_cons_iff in N. destruct N as (N1 & N2). unfold body in R at 1.
      rewrite own in R by (apply H; left; auto). destruct (E s x) as [y|] eqn:Ex; [|discriminate]. cbn in R.
      rewrite (get_set FD), (set_set FD) in R. destruct (IH s (put v0 x y) s' N2) as (v & -> & V1 & V2); auto.
      + intros k Hk. rewrite put_other by (intros ->; contradiction). apply H. right. auto.
      + exists v. split; auto. split.
        * intros k [->|Hk]; auto. rewrite Ex, V2, put_same; auto.
        * intros k Hk. rewrite V2 by (intros K; apply Hk; right; auto). apply put_other. intros ->. apply Hk. left. auto.
  Qed.

  Lemma loop_ok : forall l s s', NoDup l -> loop l body s = Ok s' ->
    exists v, s' = set s v /\ (forall k, In k l -> E s k = Ok (v k)) /\ (forall k, ~ In k l -> v k = get s k).
  Proof.
    intros l s s' N R. rewrite <- (set_get FD s) in R. apply loop_from in R; auto.
  Qed.

  Lemma loop_runs_from : forall l s v0, NoDup l -> (forall k, In k l -> v0 k = get s k) ->
    (forall k, In k l -> exists y, E s k = Ok y) -> exists s', loop l body (set s v0) = Ok s'.
  Proof.
    induction l as [|x l IH]; intros s v0 N H R; cbn; [eauto|].
    apply NoDup_cons_iff in N. destruct N as (N1 & N2). unfold body at 1.
    rewrite own by (apply H; left; auto). destruct (R x (or_introl eq_refl)) as (y & ->). cbn.
    rewrite (get_set FD), (set_set FD). apply IH; auto.
    - intros k Hk. rewrite put_other by (intros ->; contradiction). apply H. right. auto.
    - intros k Hk. apply R. right. auto.
  Qed.

  Lemma loop_raise_from : forall l s v0 e, NoDup l -> (forall k, In k l -> v0 k = get s k) ->
    loop l body (set s v0) = Raise e -> exists k, In k l /\ E s k = Raise e.
  Proof.
    induction l as [|x l IH]; intros s v0 e N H R; cbn in R; [discriminate|].
    apply NoDup_cons_iff in N. destruct N as (N1 & N2). unfold body in R at 1.
    rewrite own in R by (apply H; left; auto). destruct (E s x) as [y|e'] eqn:Ex; cbn in R.
    - rewrite (get_set FD), (set_set FD) in R. apply IH in R; auto.
      + destruct R as (k & Hk & R). exists k. split; [right; auto|auto].
      + intros k Hk. rewrite put_other by (intros ->; contradiction). apply H. right. auto.
    - exists x. split; [left; auto|]. congruence.
  Qed.

  Lemma loop_raise : forall l s e, NoDup l -> loop l body s = Raise e -> exists k, In k l /\ E s k = Raise e.
  Proof. intros l s e N R. rewrite <- (set_get FD s) in R. eapply loop_raise_from; eauto. Qed.

  Lemma loop_runs : forall l s, NoDup l -> (forall k, In k l -> exists y, E s k = Ok y) ->
    exists s', loop l body s = Ok s'.
  Proof. intros l s N R. rewrite <- (set_get FD s). apply loop_runs_from; auto. Qed.
End Loop.

Lemma loop_ext : forall A (l : list A) b1 b2 s, (forall x s, b1 x s = b2 x s) -> loop l b1 s = loop l b2 s.
Proof.
  intros A l b1 b2 s H. revert s. induction l as [|x l IH]; intros s; cbn; auto. rewrite H. destruct (b2 x s); cbn; auto.
Qed.

(** The same for a value that is written without exceptions. *)
Section Pure.
  Context {A : Type} {get : st -> nat -> A} {set : st -> (nat -> A) -> st} (FD : field get set).
  Variable E : st -> nat -> A.
  Hypothesis own : forall s v k, v k = get s k -> E (set s v) k = E s k.

  Lemma loop_pure : forall l s, NoDup l -> exists v,
    loop l (fun k s => Ok (set s (put (get s) k (E s k)))) s = Ok (set s v) /\
    (forall k, In k l -> v k = E s k) /\ (forall k, ~ In k l -> v k = get s k).
  Proof.
    intros l s N. assert (own' : forall s v k, v k = get s k -> (fun s k => Ok (E s k)) (set s v) k = (fun s k => Ok (E s k)) s k).
    { intros s0 v k H. cbn. f_equal. apply own. auto. }
    destruct (loop_runs FD (fun s k => Ok (E s k)) own' l s N) as (s' & R); [eauto|].
    destruct (loop_ok FD (fun s k => Ok (E s k)) own' l s s' N R) as (v & -> & V1 & V2). exists v.
    split; [cbn in R; auto|]. split; auto. intros k Hk. specialize (V1 k Hk). cbn in V1. congruence.
  Qed.
End Pure.

(** ** Arithmetic of one face *)

Lemma rdiv_ok : forall x y z, rdiv x y = Ok z -> y <> 0 /\ z = x / y.
Proof.
  intros x y z H. unfold rdiv in H. destruct (Reqb y 0) eqn:E; [discriminate|]. apply Reqb_false in E.
  injection H as <-. auto.
Qed.

Lemma rdiv_runs : forall x y, y <> 0 -> rdiv x y = Ok (x / y).
Proof. intros x y H. unfold rdiv. replace (Reqb y 0) with false by (symmetry; apply Reqb_false; auto). auto. Qed.

Lemma area_nonneg : forall t, 0 <= area t.
Proof. intros t. unfold area. pose proof (vmod_nonneg (cross (vsub (tb t) (ta t)) (vsub (tc t) (tb t)))). lra. Qed.

Lemma root_solves : forall a b v r, b <> 0 -> r * r = a * a + 4 * b * v ->
  a * ((- a + r) / (2 * b)) + b * ((- a + r) / (2 * b)) * ((- a + r) / (2 * b)) = v.
Proof.
  intros a b v r Hb Hr.
  replace (a * ((- a + r) / (2 * b)) + b * ((- a + r) / (2 * b)) * ((- a + r) / (2 * b)))
    with ((r * r - a * a) / (4 * b)) by (field; auto).
  rewrite Hr. field. auto.
Qed.

(** C50: a root that is taken solves the equation. *)
Theorem quadratic_solves : forall a b v h, quadratic_shift a b v = Some h -> 0 <= h /\ a * h + b * h * h = v.
Proof.
  intros a b v h H. unfold quadratic_shift in H.
  destruct (Rltb eps10 (Rabs b)) eqn:Eb; [|discriminate]. apply Rltb_true in Eb.
  destruct (Rleb 0 (a * a + 4 * b * v)) eqn:Ed; [|discriminate]. apply Rleb_true in Ed. cbv zeta in H.
  set (d := sqrt (a * a + 4 * b * v)) in *.
  assert (D : d * d = a * a + 4 * b * v) by (apply sqrt_sqrt; auto).
  assert (B : b <> 0) by (intros ->; rewrite Rabs_R0 in Eb; pose proof eps10_pos; lra).
  assert (S1 := root_solves a b v d B D).
  assert (S2 := root_solves a b v (- d) B ltac:(rewrite <- D; ring)).
  replace (- a + - d) with (- a - d) in S2 by ring.
  destruct (Rleb 0 ((- a + d) / (2 * b))) eqn:E1, (Rleb 0 ((- a - d) / (2 * b))) eqn:E2; cbn in H; try discriminate;
    injection H as <-; rewrite ?Rleb_true in *; auto.
  unfold Rmin. destruct (Rle_dec _ _); auto.
Qed.

(** C50: the formula is used whenever the equation has a real solution. *)
Theorem quadratic_used : forall a b v, 0 <= a -> 0 <= v -> eps10 < Rabs b -> 0 <= a * a + 4 * b * v ->
  exists h, quadratic_shift a b v = Some h.
Proof.
  intros a b v Ha Hv Hb Hd. unfold quadratic_shift.
  replace (Rltb eps10 (Rabs b)) with true by (symmetry; apply Rltb_true; auto).
  replace (Rleb 0 (a * a + 4 * b * v)) with true by (symmetry; apply Rleb_true; auto). cbv zeta.
  set (d := sqrt (a * a + 4 * b * v)).
  assert (D : d * d = a * a + 4 * b * v) by (apply sqrt_sqrt; auto). assert (D0 : 0 <= d) by apply sqrt_pos.
  assert (H1 : 0 <= (- a + d) / (2 * b)).
  { destruct (Rle_or_lt 0 b) as [Hp|Hn].
    - assert (0 < b) by (destruct Hp as [|<-]; auto; rewrite Rabs_R0 in Hb; pose proof eps10_pos; lra).
      assert (a <= d) by (apply Rsqr_incr_0_var; auto; unfold Rsqr; nra).
      apply Rmult_le_pos; [lra|]. apply Rlt_le, Rinv_0_lt_compat. lra.
    - assert (d <= a) by (apply Rsqr_incr_0_var; auto; unfold Rsqr; nra).
      replace ((- a + d) / (2 * b)) with ((a - d) / (2 * - b)) by (field; lra).
      apply Rmult_le_pos; [lra|]. apply Rlt_le, Rinv_0_lt_compat. lra. }
  replace (Rleb 0 ((- a + d) / (2 * b))) with true by (symmetry; apply Rleb_true; auto).
  destruct (Rleb 0 ((- a - d) / (2 * b))); cbn; eauto.
Qed.

Lemma coefs_area : forall g s f n n1 n2 n3 d1 d2 d3 a b, f_nodes g f = (n1, n2, n3) ->
  prizmatoid_volume_coefs (n_pos s n1) (n_pos s n2) (n_pos s n3) d1 d2 d3 n = Ok (a, b) ->
  a = area (get_triangle g s f).
Proof.
  intros g s f n n1 n2 n3 d1 d2 d3 a b F H. unfold prizmatoid_volume_coefs in H.
  destruct (vdivr d1 _); [|discriminate]. cbn [rbind] in H. destruct (vdivr d2 _); [|discriminate]. cbn [rbind] in H.
  destruct (vdivr d3 _); [|discriminate]. cbn [rbind] in H. injection H as <- _.
  unfold area, get_triangle. rewrite F. cbn [ta tb tc]. rewrite cross_shift. auto.
Qed.

(** The values the coefficients stand for: the triangle pushed along the directions to
    the height [h] has, seen along the normal, the area a + 2 b h + c' h^2. *)
Theorem coefs_meaning : forall v1 v2 v3 n1 n2 n3 n a b r, normal_orth (Tri v1 v2 v3 r) = Ok n ->
  prizmatoid_volume_coefs v1 v2 v3 n1 n2 n3 n = Ok (a, b) ->
  forall h, let top v m := vadd v (vmul m (h / dot n m)) in
  / 2 * dot (cross (vsub (top v2 n2) (top v1 n1)) (vsub (top v3 n3) (top v1 n1))) n =
  a + 2 * b * h +
  h * h / 2 * dot (cross (vsub (vmul n2 (1 / dot n n2)) (vmul n1 (1 / dot n n1)))
                         (vsub (vmul n3 (1 / dot n n3)) (vmul n1 (1 / dot n n1)))) n.
Proof.
  intros v1 v2 v3 n1 n2 n3 n a b r N H h top. unfold prizmatoid_volume_coefs in H.
  unfold vdivr in H. destruct (Reqb (dot n n1) 0) eqn:E1; [discriminate|]. cbn [rbind] in H.
  destruct (Reqb (dot n n2) 0) eqn:E2; [discriminate|]. cbn [rbind] in H.
  destruct (Reqb (dot n n3) 0) eqn:E3; [discriminate|]. cbn [rbind] in H. injection H as <- <-.
  apply Reqb_false in E1, E2, E3.
  assert (M : dot (cross (vsub v2 v1) (vsub v3 v1)) n = vmod (cross (vsub v2 v1) (vsub v3 v1))).
  { unfold normal_orth, orth in N. cbn [ta tb tc] in N. rewrite cross_shift in N. set (w := cross _ _) in *.
    unfold vdivr in N. destruct (Reqb (vmod w) 0) eqn:E; [discriminate|]. apply Reqb_false in E. injection N as <-.
    assert (Q : vmod w * vmod w = dot w w) by (unfold vmod; apply sqrt_sqrt, mod2_nonneg).
    replace (dot w (vmul w (1 / vmod w))) with (dot w w * (1 / vmod w)) by (unfold dot, vmul; cbn; ring).
    rewrite <- Q. field. auto. }
  rewrite <- M. clear M N. unfold top. unfold Rdiv. set (i1 := / dot n n1). set (i2 := / dot n n2). set (i3 := / dot n n3).
  clearbody i1 i2 i3. clear top. destruct v1, v2, v3, n1, n2, n3, n. unfold dot, cross, vsub, vadd, vmul. cbn. field.
Qed.

Lemma face_shift_ok : forall g s f h, face_shift g s f = Ok h -> 0 <= f_chunk s f ->
  area (get_triangle g s f) <> 0 /\ 0 <= h /\
  (area (get_triangle g s f) * h = f_chunk s f \/
   exists n n1 n2 n3 a b, f_nodes g f = (n1, n2, n3) /\ normal_orth (get_triangle g s f) = Ok n /\
     prizmatoid_volume_coefs (n_pos s n1) (n_pos s n2) (n_pos s n3) (n_dir s n1) (n_dir s n2) (n_dir s n3) n = Ok (a, b) /\
     a = area (get_triangle g s f) /\ a * h + b * h * h = f_chunk s f).
Proof.
  intros g s f h H C. unfold face_shift in H. destruct (rdiv _ _) as [q|] eqn:Eq; [|discriminate]. cbn [rbind] in H.
  apply rdiv_ok in Eq. destruct Eq as (A & ->). split; auto.
  assert (P : 0 < area (get_triangle g s f)) by (pose proof (area_nonneg (get_triangle g s f)); lra).
  assert (CL : 0 <= f_chunk s f / area (get_triangle g s f) /\
    area (get_triangle g s f) * (f_chunk s f / area (get_triangle g s f)) = f_chunk s f).
  { split; [apply Rmult_le_pos; auto; apply Rlt_le, Rinv_0_lt_compat; auto|field; auto]. }
  destruct (Rltb eps10 (f_chunk s f)); [|injection H as <-; tauto].
  destruct (f_nodes g f) as [[n1 n2] n3] eqn:F. destruct (normal_orth _) as [n|] eqn:En; [|discriminate]. cbn [rbind] in H.
  destruct (prizmatoid_volume_coefs _ _ _ _ _ _ _) as [[a b]|] eqn:Ec; [|discriminate]. cbn [rbind fst snd] in H.
  destruct (quadratic_shift a b (f_chunk s f)) as [h'|] eqn:Q; [|injection H as <-; tauto].
  injection H as <-. apply quadratic_solves in Q. split; [tauto|]. right. exists n, n1, n2, n3, a, b.
  split; auto. split; auto. split; auto. split; [eapply coefs_area; eauto|tauto].
Qed.

Lemma rsum_acc : forall l a, fold_left Rplus l a = a + fold_left Rplus l 0.
Proof. induction l as [|x l IH]; intros a; cbn; [ring|]. rewrite IH, (IH (0 + x)). ring. Qed.

Lemma rsum_cons : forall x l, rsum (x :: l) = x + rsum l.
Proof. intros x l. unfold rsum. cbn. rewrite rsum_acc. ring. Qed.

Lemma rsum_total : forall A (f : A -> R) l, rsum (map f l) = total f l.
Proof. induction l as [|x l IH]; [reflexivity|]. cbn [map total]. rewrite rsum_cons, IH. auto. Qed.

Lemma total_nonneg : forall A (f : A -> R) l, (forall x, In x l -> 0 <= f x) -> 0 <= total f l.
Proof.
  induction l as [|x l IH]; intros H; cbn; [lra|]. pose proof (H x (or_introl eq_refl)).
  assert (0 <= total f l) by (apply IH; intros; apply H; right; auto). lra.
Qed.

Lemma total_ext : forall A (f h : A -> R) l, (forall x, In x l -> f x = h x) -> total f l = total h l.
Proof.
  induction l as [|x l IH]; intros H; cbn; auto. rewrite (H x (or_introl eq_refl)), IH; auto. intros; apply H; right; auto.
Qed.

Lemma length_pos : forall A (x : A) l, 0 < INR (length (x :: l)).
Proof. intros. apply lt_0_INR. cbn. lia. Qed.

(** What define_ice_shifts does. *)
Theorem define_ice_shifts_ok : forall g s s', plain_topo g -> define_ice_shifts g s = Ok s' ->
  exists hf hn, s' = w_nheight (w_height s hf) hn /\
    (forall f, In f (faces g) -> face_shift g s f = Ok (hf f)) /\
    (forall n, In n (nodes g) -> n_faces g n <> [] /\ 0 <= hn n /\ hn n = total hf (n_faces g n) / INR (length (n_faces g n))).
Proof.
  intros g s s' (Nf & Nn & _ & _) H. unfold define_ice_shifts in H.
  destruct (loop (faces g) _ s) as [s1|] eqn:E1; [|discriminate]. cbn [rbind] in H.
  assert (own1 : forall s v k, v k = f_height s k -> face_shift g (w_height s v) k = face_shift g s k) by (intros [] v k _; reflexivity).
  destruct (loop_ok fd_height (face_shift g) own1 _ _ _ Nf E1) as (hf & -> & V1 & _).
  assert (own2 : forall s v k, v k = n_height s k -> node_shift g (w_nheight s v) k = node_shift g s k) by (intros [] v k _; reflexivity).
  destruct (loop_ok fd_nheight (node_shift g) own2 _ _ _ Nn H) as (hn & -> & W1 & _).
  exists hf, hn. split; auto. split; auto. intros n Hn. specialize (W1 n Hn). unfold node_shift in W1. cbv zeta in W1. change (f_height (w_height s hf)) with hf in W1.
  destruct (n_faces g n) as [|x r] eqn:En; [discriminate|]. split; [discriminate|].
  rewrite rsum_total in W1. destruct (Rltb _ 0) eqn:E0; [discriminate|]. apply Rltb_false in E0. injection W1 as W1.
  split; [|symmetry; exact W1]. rewrite <- W1. exact E0.
Qed.

(** Ice that is not negative never gives the exception `Negative node ice shift'. *)
Theorem define_ice_shifts_sign : forall g s, plain_topo g -> (forall f, In f (faces g) -> 0 <= f_chunk s f) ->
  define_ice_shifts g s <> Raise EException.
Proof.
  intros g s (Nf & Nn & _ & Inc) C H. unfold define_ice_shifts in H.
  assert (own1 : forall s v k, v k = f_height s k -> face_shift g (w_height s v) k = face_shift g s k) by (intros [] v k _; reflexivity).
  assert (own2 : forall s v k, v k = n_height s k -> node_shift g (w_nheight s v) k = node_shift g s k) by (intros [] v k _; reflexivity).
  destruct (loop (faces g) _ s) as [s1|e] eqn:E1; cbn [rbind] in H.
  - destruct (loop_ok fd_height (face_shift g) own1 _ _ _ Nf E1) as (hf & -> & V1 & _).
    destruct (loop_raise fd_nheight (node_shift g) own2 _ _ _ Nn H) as (n & Hn & R). unfold node_shift in R. cbv zeta in R. change (f_height (w_height s hf)) with hf in R.
    destruct (n_faces g n) as [|x r] eqn:En; [discriminate|]. rewrite rsum_total in R.
    destruct (Rltb _ 0) eqn:E0; [|discriminate]. apply Rltb_true in E0.
    assert (0 <= total hf (x :: r)).
    { apply total_nonneg. intros f Hf. rewrite <- En in Hf. specialize (Inc n f Hn Hf).
      destruct (face_shift_ok g s f (hf f) (V1 f Inc) (C f Inc)) as (_ & P & _). auto. }
    pose proof (length_pos _ x r) as L. assert (0 <= total hf (x :: r) / INR (length (x :: r))).
    { apply Rmult_le_pos; auto. apply Rlt_le, Rinv_0_lt_compat; auto. }
    cbn [length total] in *. lra.
  - injection H as ->. destruct (loop_raise fd_height (face_shift g) own1 _ _ _ Nf E1) as (f & Hf & R).
    unfold face_shift, rdiv in R. destruct (Reqb _ 0) in R; [discriminate|]. cbn [rbind] in R.
    destruct (Rltb eps10 _) in R; [|discriminate]. destruct (f_nodes g f) as [[n1 n2] n3].
    unfold normal_orth, orth, vdivr in R. destruct (Reqb _ 0) in R; [discriminate|]. cbn [rbind] in R.
    unfold prizmatoid_volume_coefs, vdivr in R.
    destruct (Reqb _ 0) in R; [discriminate|]. cbn [rbind] in R. destruct (Reqb _ 0) in R; [discriminate|]. cbn [rbind] in R.
    destruct (Reqb _ 0) in R; [discriminate|]. cbn [rbind] in R. destruct (quadratic_shift _ _ _) in R; discriminate.
Qed.
