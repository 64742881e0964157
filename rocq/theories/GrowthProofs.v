(** Proofs about steps of growing ice. *)

From Coq Require Import ZArith Reals Bool Lra Lia List.
From Verif Require Import Py Geom GeomSpec GeomProofs CloudProofs GeomMore Remesh RemeshSpec RemeshProofs DirProofs SmoothProofs.
Import ListNotations.
Open Scope R_scope.

(** The volume between a face and its place after the move. *)
Definition grown (g : topo) (s : st) (f : nat) : R :=
  let '(n1, n2, n3) := f_nodes g f in
  let p1 := n_pos s n1 in let p2 := n_pos s n2 in let p3 := n_pos s n3 in
  displaced_triangle_volume p1 p2 p3 (vadd p1 (n_move s n1)) (vadd p2 (n_move s n2)) (vadd p3 (n_move s n3)).

Lemma grown_nonneg : forall g s f, 0 <= grown g s f.
Proof. intros g s f. unfold grown. destruct (f_nodes g f) as [[a b] c]. apply displaced_nonneg. Qed.

Definition rest_after (o : options) (r v : R) : R := if rest_volume_redistr o then (if Rltb (r - v) 0 then 0 else r - v) else r.

Lemma accrete_eq : forall o g f s, accrete o g f s =
  Ok (w_actual (w_rest s (if rest_volume_redistr o then put (f_rest s) f (rest_after o (f_rest s f) (grown g s f)) else f_rest s))
        (put (f_actual s) f (f_actual s f + grown g s f))).
Proof.
  intros o g f []. unfold accrete, grown, rest_after. cbn. destruct (f_nodes g f) as [[a b] c].
  destruct (rest_volume_redistr o); reflexivity.
Qed.

Lemma accrete_loop : forall o g l s, NoDup l -> exists r a, loop l (accrete o g) s = Ok (w_actual (w_rest s r) a) /\
  (forall f, In f l -> r f = rest_after o (f_rest s f) (grown g s f) /\ a f = f_actual s f + grown g s f) /\
  (forall f, ~ In f l -> r f = f_rest s f /\ a f = f_actual s f).
Proof.
  intros o g. induction l as [|x l IH]; intros s N.
  - exists (f_rest s), (f_actual s). split; [destruct s; reflexivity|]. split; [intros f []|auto].
  - apply NoDup_cons_iff in N. destruct N as (N1 & N2). cbn [loop]. rewrite accrete_eq. cbn [rbind].
    match goal with |- context [loop l _ ?s1] => destruct (IH s1 N2) as (r & a & R & V1 & V2) end.
    exists r, a. split; [rewrite R; destruct s; reflexivity|]. cbn [f_rest f_actual w_actual w_rest] in V1, V2. split.
    + intros f [->|Hf].
      * destruct (V2 f N1) as (-> & ->). rewrite put_same. split; auto. unfold rest_after.
        destruct (rest_volume_redistr o); auto. apply put_same.
      * destruct (V1 f Hf) as (-> & ->). assert (f <> x) by (intros ->; contradiction). rewrite put_other by auto.
        split; auto. f_equal. destruct (rest_volume_redistr o); auto. apply put_other. auto.
    + intros f Hf. assert (f <> x) by (intros ->; apply Hf; left; auto). assert (~ In f l) by (intros K; apply Hf; right; auto).
      destruct (V2 f) as (-> & ->); auto. rewrite put_other by auto. split; auto.
      destruct (rest_volume_redistr o); auto. apply put_other. auto.
Qed.

(** The effect of move_nodes. *)
Lemma move_nodes_ok : forall o g s, plain_topo g -> exists m r a p,
  move_nodes o g s = Ok (w_pos (w_actual (w_rest (w_move s m) r) a) p) /\
  (forall n, In n (nodes g) -> m n = vmul (n_dir s n) (n_height s n) /\ p n = vadd (n_pos s n) (m n)) /\
  (forall n, ~ In n (nodes g) -> m n = n_move s n /\ p n = n_pos s n) /\
  (forall f, In f (faces g) -> r f = rest_after o (f_rest s f) (grown g (w_move s m) f) /\
                               a f = f_actual s f + grown g (w_move s m) f) /\
  (forall f, ~ In f (faces g) -> r f = f_rest s f /\ a f = f_actual s f).
Proof.
  intros o g s (Nf & Nn & _ & _). unfold move_nodes.
  assert (own1 : forall s v k, v k = n_move s k -> vmul (n_dir (w_move s v) k) (n_height (w_move s v) k) = vmul (n_dir s k) (n_height s k))
    by (intros [] v k _; reflexivity).
  destruct (loop_pure fd_move (fun s n => vmul (n_dir s n) (n_height s n)) own1 (nodes g) s Nn) as (m & R1 & M1 & M2).
  rewrite R1. cbn [rbind]. destruct (accrete_loop o g (faces g) (w_move s m) Nf) as (r & a & R2 & A1 & A2). rewrite R2. cbn [rbind].
  assert (own3 : forall s v k, v k = n_pos s k -> vadd (n_pos (w_pos s v) k) (n_move (w_pos s v) k) = vadd (n_pos s k) (n_move s k)).
  { intros [] v k H. cbn in *. rewrite H. reflexivity. }
  destruct (loop_pure fd_pos (fun s n => vadd (n_pos s n) (n_move s n)) own3 (nodes g) (w_actual (w_rest (w_move s m) r) a) Nn) as (p & R3 & P1 & P2).
  exists m, r, a, p. rewrite R3. split; auto. split; [|split; [|split]].
  - intros n Hn. split; [apply M1; auto|]. rewrite P1 by auto. reflexivity.
  - intros n Hn. split; [apply M2; auto|]. rewrite P2 by auto. reflexivity.
  - intros f Hf. destruct (A1 f Hf) as (-> & ->). auto.
  - intros f Hf. destruct (A2 f Hf) as (-> & ->). auto.
Qed.

(** The effect of the end of a step: nothing but saved areas (null space smoothing never
    moves a node). *)
Lemma tail_ok : forall o g s s', plain_topo g ->
  (do s <- remember_current_areas g s; do s <- null_space_smoothing o g s; correction_by_area g s) = Ok s' ->
  exists sv r, s' = w_rest (w_saved s sv) r /\ (forall f, In f (faces g) -> r f = f_rest s f) /\
    (forall f, ~ In f (faces g) -> r f = f_rest s f).
Proof.
  intros o g s s' (Nf & _) H. unfold remember_current_areas in H.
  assert (own1 : forall s v k, v k = f_saved s k -> area (get_triangle g (w_saved s v) k) = area (get_triangle g s k)) by (intros [] v k _; reflexivity).
  destruct (loop_pure fd_saved (fun s f => area (get_triangle g s f)) own1 (faces g) s Nf) as (sv & R1 & S1 & S2).
  rewrite R1 in H. cbn [rbind] in H.
  assert (Q : correction_by_area g (w_saved s sv) = Ok s').
  { unfold null_space_smoothing in H. destruct (nodes g), (faces g), (edges g); try discriminate.
    destruct (Z.ltb 0 (nss_steps o)); [discriminate|]. exact H. }
  clear H. unfold correction_by_area in Q.
  set (E := fun (s : st) (f : nat) => if Reqb (f_saved s f) 0 then Raise EAssertionError
            else Ok (f_rest s f * area (get_triangle g s f) / f_saved s f)).
  assert (own2 : forall s v k, v k = f_rest s k -> E (w_rest s v) k = E s k).
  { intros [] v k Hv. unfold E. cbn in *. rewrite Hv. reflexivity. }
  rewrite (loop_ext _ _ _ (fun f s => do v <- E s f; Ok (w_rest s (put (f_rest s) f v)))) in Q.
  2: { intros f s0. unfold E. destruct (Reqb _ _); reflexivity. }
  destruct (loop_ok fd_rest E own2 _ _ _ Nf Q) as (r & -> & V1 & V2). exists sv, r. split; auto. split.
  - intros f Hf. specialize (V1 f Hf). unfold E in V1. destruct (Reqb _ 0) eqn:Ez; [discriminate|]. apply Reqb_false in Ez.
    injection V1 as <-. cbn [f_saved w_saved f_rest] in *. change (get_triangle g (w_saved s sv) f) with (get_triangle g s f).
    rewrite S1 in * by auto. field. auto.
  - intros f Hf. rewrite V2 by auto. destruct s; reflexivity.
Qed.

(** What one step does. *)
Record step_effect (o : options) (g : topo) (s s' : st) (v : nat -> R) : Prop := StepEffect {
  se_vol : forall f, 0 <= v f;
  se_rest : forall f, In f (faces g) -> f_rest s' f = rest_after o (f_rest s f) (v f);
  se_actual : forall f, In f (faces g) -> f_actual s' f = f_actual s f + v f;
  se_hi : f_hi s' = f_hi s;
  se_target : f_target s' = f_target s;
  se_pos : forall n, ~ In n (nodes g) -> n_pos s' n = n_pos s n
}.

Lemma step_ok : forall o g s s', plain_topo g -> remesh_step o g s = Ok s' -> exists v, step_effect o g s s' v.
Proof.
  intros o g s s' P H. unfold remesh_step in H.
  destruct (init_ice_dirs g s) as [s1|] eqn:E1; [|discriminate]. cbn [rbind] in H.
  destruct (normals_smoothing o g s1) as [s2|] eqn:E2; [|discriminate]. cbn [rbind] in H.
  destruct (define_ice_shifts g s2) as [s3|] eqn:E3; [|discriminate]. cbn [rbind] in H.
  destruct (heights_smoothing o g s3) as [s4|] eqn:E4; [|discriminate]. cbn [rbind] in H.
  destruct (move_nodes_ok o g s4 P) as (m & r & a & p & E5 & M1 & M2 & A1 & A2). rewrite E5 in H. cbn [rbind] in H.
  apply tail_ok in H; auto. destruct H as (sv & r' & -> & T1 & T2).
  apply init_ice_dirs_ok in E1; auto. destruct E1 as (df & dn & -> & _).
  apply normals_frame in E2; auto. destruct E2 as (df' & dn' & ->).
  apply define_ice_shifts_ok in E3; auto. destruct E3 as (hf & hn & -> & _).
  apply smoothing_total in E4; auto. destruct E4 as (_ & SR). unfold same_rest in SR.
  destruct SR as (Q1 & Q2 & Q3 & Q4 & Q5 & Q6 & Q7 & Q8 & Q9).
  exists (grown g (w_move s4 m)). constructor.
  - intros f. apply grown_nonneg.
  - intros f Hf. cbn. rewrite T1 by auto. cbn. destruct (A1 f Hf) as (-> & _). rewrite Q6. destruct s; reflexivity.
  - intros f Hf. cbn. destruct (A1 f Hf) as (_ & ->). rewrite Q7. destruct s; reflexivity.
  - cbn. rewrite Q4. destruct s; reflexivity.
  - cbn. rewrite Q5. destruct s; reflexivity.
  - intros n Hn. cbn. destruct (M2 n Hn) as (_ & ->). rewrite Q1. destruct s; reflexivity.
Qed.

Lemma chunks_ok : forall g k s s', plain_topo g -> calc_ice_chunks g k s = Ok s' ->
  exists c, s' = w_chunk s c /\ forall f, In f (faces g) -> IZR k <> 0 /\ c f = f_rest s f / IZR k.
Proof.
  intros g k s s' (Nf & _) H. unfold calc_ice_chunks in H.
  assert (own : forall s v j, v j = f_chunk s j -> rdiv (f_rest (w_chunk s v) j) (IZR k) = rdiv (f_rest s j) (IZR k)) by (intros [] v j _; reflexivity).
  destruct (loop_ok fd_chunk (fun s f => rdiv (f_rest s f) (IZR k)) own _ _ _ Nf H) as (c & -> & V & _). exists c. split; auto.
  intros f Hf. specialize (V f Hf). cbn in V. apply rdiv_ok in V. auto.
Qed.

(** C49: with redistribution the rest of ice is never negative. *)
Lemma step_rest_nonneg : forall o g s s', plain_topo g -> rest_volume_redistr o = true -> remesh_step o g s = Ok s' ->
  forall f, In f (faces g) -> 0 <= f_rest s' f.
Proof.
  intros o g s s' P R H f Hf. apply step_ok in H; auto. destruct H as (v & SE). rewrite (se_rest _ _ _ _ _ SE) by auto.
  unfold rest_after. rewrite R. destruct (Rltb _ 0) eqn:E; [lra|]. apply Rltb_false in E. lra.
Qed.

Theorem steps_rest_nonneg : forall o g k s s', plain_topo g -> rest_volume_redistr o = true ->
  (forall f, In f (faces g) -> 0 <= f_rest s f) -> steps o g k s = Ok s' -> forall f, In f (faces g) -> 0 <= f_rest s' f.
Proof.
  intros o g k. induction k as [|k IH]; intros s s' P R H0 H f Hf; cbn [steps] in H.
  - injection H as <-. auto.
  - destruct (calc_ice_chunks g _ s) as [s1|] eqn:E1; [|discriminate]. cbn [rbind] in H.
    destruct (remesh_step o g s1) as [s2|] eqn:E2; [|discriminate]. cbn [rbind] in H.
    apply (IH s2 s' P R); auto. exact (step_rest_nonneg o g s1 s2 P R E2).
Qed.

Lemma steps_history : forall o g k s s', steps o g k s = Ok s' <-> exists l, history o g k s l s'.
Proof.
  intros o g k. induction k as [|k IH]; intros s s'; cbn [steps]; split.
  - intros H. injection H as <-. eexists. constructor.
  - intros (l & H). inversion H; subst. auto.
  - intros H. destruct (calc_ice_chunks g _ s) as [s1|] eqn:E1; [|discriminate]. cbn [rbind] in H.
    destruct (remesh_step o g s1) as [s2|] eqn:E2; [|discriminate]. cbn [rbind] in H. apply IH in H. destruct H as (l & H).
    exists (s1 :: l). econstructor; eauto.
  - intros (l & H). inversion H; subst. rewrite H1. cbn [rbind]. rewrite H2. cbn [rbind]. apply IH. eauto.
Qed.

Lemma history_length : forall o g k s l s', history o g k s l s' -> length l = k.
Proof. intros o g k s l s' H. induction H; cbn; auto. Qed.

(** Without redistribution: the step with [k - i] steps to go takes the whole target over
    [k - i]. *)
Theorem history_plain_chunks : forall o g k s l s', plain_topo g -> rest_volume_redistr o = false -> history o g k s l s' ->
  forall i si f, nth_error l i = Some si -> In f (faces g) -> f_chunk si f = f_rest s f / INR (k - i).
Proof.
  intros o g k s l s' P R H. induction H as [|k s s1 s2 l s' E1 E2 H IH]; intros i si f Hi Hf; [destruct i; discriminate|].
  apply chunks_ok in E1; auto. destruct E1 as (c & -> & C). destruct i as [|i]; cbn in Hi.
  - injection Hi as <-. cbn [f_chunk w_chunk]. destruct (C f Hf) as (_ & ->). rewrite INR_IZR_INZ. reflexivity.
  - rewrite (IH i si f Hi Hf). cbn [Nat.sub]. f_equal. apply step_ok in E2; auto. destruct E2 as (v & SE).
    rewrite (se_rest _ _ _ _ _ SE) by auto. unfold rest_after. rewrite R. destruct s; reflexivity.
Qed.

(** With redistribution every chunk is the rest at its step over the steps to go, and it
    is not negative. *)
Theorem history_chunks : forall o g k s l s', plain_topo g -> rest_volume_redistr o = true ->
  (forall f, In f (faces g) -> 0 <= f_rest s f) -> history o g k s l s' ->
  forall i si f, nth_error l i = Some si -> In f (faces g) ->
  0 <= f_rest si f /\ f_chunk si f = f_rest si f / INR (k - i) /\ 0 <= f_chunk si f.
Proof.
  intros o g k s l s' P R H0 H. induction H as [|k s s1 s2 l s' E1 E2 H IH]; intros i si f Hi Hf; [destruct i; discriminate|].
  destruct i as [|i]; cbn in Hi.
  - injection Hi as <-. apply chunks_ok in E1; auto. destruct E1 as (c & -> & C).
    assert (Q : f_rest (w_chunk s c) f = f_rest s f) by (destruct s; reflexivity).
    assert (Q2 : f_chunk (w_chunk s c) f = f_rest s f / INR (S k)).
    { cbn [f_chunk w_chunk]. destruct (C f Hf) as (_ & ->). rewrite INR_IZR_INZ. reflexivity. }
    rewrite Q, Q2. replace (S k - 0)%nat with (S k) by lia. split; auto. split; auto.
    apply Rmult_le_pos; [auto|]. apply Rlt_le, Rinv_0_lt_compat. apply lt_0_INR. lia.
  - replace (S k - S i)%nat with (k - i)%nat by lia. apply IH; auto. exact (step_rest_nonneg o g s1 s2 P R E2).
Qed.

(** Ice grown never gets less. *)
Theorem steps_actual : forall o g k s s', plain_topo g -> steps o g k s = Ok s' ->
  f_target s' = f_target s /\ (forall f, In f (faces g) -> f_actual s f <= f_actual s' f) /\
  (forall n, ~ In n (nodes g) -> n_pos s' n = n_pos s n).
Proof.
  intros o g k. induction k as [|k IH]; intros s s' P H; cbn [steps] in H.
  - injection H as <-. split; auto. split; intros; auto. lra.
  - destruct (calc_ice_chunks g _ s) as [s1|] eqn:E1; [|discriminate]. cbn [rbind] in H.
    destruct (remesh_step o g s1) as [s2|] eqn:E2; [|discriminate]. cbn [rbind] in H.
    apply chunks_ok in E1; auto. destruct E1 as (c & -> & _). apply step_ok in E2; auto. destruct E2 as (v & SE).
    destruct (IH _ _ P H) as (T & A & N). split; [|split].
    + rewrite T, (se_target _ _ _ _ _ SE). destruct s; reflexivity.
    + intros f Hf. specialize (A f Hf). rewrite (se_actual _ _ _ _ _ SE) in A by auto. pose proof (se_vol _ _ _ _ _ SE f).
      assert (f_actual (w_chunk s c) f = f_actual s f) by (destruct s; reflexivity). lra.
    + intros n Hn. rewrite N, (se_pos _ _ _ _ _ SE) by auto. destruct s; reflexivity.
Qed.

(** If nothing is cut to zero, what is grown and what is left make the target. *)
Theorem step_balance : forall o g s s', plain_topo g -> rest_volume_redistr o = true -> remesh_step o g s = Ok s' ->
  forall f, In f (faces g) -> f_rest s f + f_actual s f <= f_rest s' f + f_actual s' f /\
    (0 < f_rest s' f -> f_rest s' f + f_actual s' f = f_rest s f + f_actual s f).
Proof.
  intros o g s s' P R H f Hf. apply step_ok in H; auto. destruct H as (v & SE).
  rewrite (se_rest _ _ _ _ _ SE), (se_actual _ _ _ _ _ SE) by auto. unfold rest_after. rewrite R.
  destruct (Rltb _ 0) eqn:E; [apply Rltb_true in E; lra|apply Rltb_false in E; lra].
Qed.
