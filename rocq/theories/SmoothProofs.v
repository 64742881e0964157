(** Proofs about heights smoothing. *)

From Coq Require Import ZArith Reals Bool Lra Lia List Permutation.
From Verif Require Import Py Geom GeomSpec GeomProofs CloudProofs GeomMore Remesh RemeshSpec RemeshProofs.
Import ListNotations.
Open Scope R_scope.

(** The area by which the difference of heights is multiplied. *)
Definition mid_area (g : topo) (s : st) (f : nat) : R :=
  if Reqb (f_height s f) 0 then area (get_triangle g s f) else f_chunk s f / f_height s f.

(** The amount that goes over an edge. *)
Definition amount (o : options) (g : topo) (s : st) (mx : R) (e : nat) : R :=
  match sides (f_height s) g e with
  | Some (u, l) => hsmooth_beta o * (Rmin (f_height s u - f_height s l) (hsmooth_alfa o * mx) * mid_area g s u)
  | None => 0
  end.

Definition moved (o : options) (g : topo) (s : st) (mx : R) (e : nat) (v : nat -> R) : nat -> R :=
  match sides (f_height s) g e with
  | Some (u, l) =>
      let v1 := put v u (v u - amount o g s mx e) in put v1 l (v1 l + amount o g s mx e)
  | None => v
  end.

Lemma exchange_edge_run : forall o g mx e s v, exists s',
  exchange_edge o g mx e (w_loc s v) = Ok s' /\ s' = w_loc s (moved o g s mx e v).
Proof.
  intros o g mx e s v. unfold exchange_edge, moved, amount, sides, mid_area.
  destruct (e_faces g e) as [|a [|b [|c r]]]; try (eexists; split; [reflexivity|reflexivity]).
  change (f_height (w_loc s v)) with (f_height s). change (f_chunk (w_loc s v)) with (f_chunk s).
  unfold Rltb. destruct (Rlt_dec (f_height s a) (f_height s b)).
  - destruct (Reqb (f_height s b) 0) eqn:E; [eexists; split; reflexivity|]. apply Reqb_false in E.
    rewrite rdiv_runs by auto. eexists; split; reflexivity.
  - destruct (Reqb (f_height s a) 0) eqn:E; [eexists; split; reflexivity|]. apply Reqb_false in E.
    rewrite rdiv_runs by auto. eexists; split; reflexivity.
Qed.

Lemma w_loc_get : forall s v, f_loc (w_loc s v) = v.
Proof. intros []. reflexivity. Qed.

Lemma exchange_run : forall o g mx es s v, loop es (exchange_edge o g mx) (w_loc s v) =
  Ok (w_loc s (fold_left (fun v e => moved o g s mx e v) es v)).
Proof.
  induction es as [|e es IH]; intros s v; [reflexivity|]. cbn [loop fold_left].
  destruct (exchange_edge_run o g mx e s v) as (s' & -> & ->). cbn [rbind]. apply IH.
Qed.

Lemma moved_at : forall o g s mx e v f, moved o g s mx e v f =
  v f - given (f_height s) g (amount o g s mx) f [e] + taken (f_height s) g (amount o g s mx) f [e].
Proof.
  intros o g s mx e v f. unfold moved, given, taken. cbn [total]. destruct (sides (f_height s) g e) as [[u l]|]; [|ring].
  cbv zeta. destruct (Nat.eq_dec l f) as [->|Nl].
  - rewrite put_same. destruct (Nat.eq_dec u f) as [->|Nu]; [rewrite put_same; ring|].
    rewrite put_other by auto. ring.
  - rewrite put_other by auto. destruct (Nat.eq_dec u f) as [->|Nu]; [rewrite put_same; ring|].
    rewrite put_other by auto. ring.
Qed.

Lemma given_cons : forall h g q f e es, given h g q f (e :: es) = given h g q f [e] + given h g q f es.
Proof. intros. unfold given. cbn [total]. ring. Qed.
Lemma taken_cons : forall h g q f e es, taken h g q f (e :: es) = taken h g q f [e] + taken h g q f es.
Proof. intros. unfold taken. cbn [total]. ring. Qed.

Lemma moved_all_at : forall o g s mx es v f, fold_left (fun v e => moved o g s mx e v) es v f =
  v f - given (f_height s) g (amount o g s mx) f es + taken (f_height s) g (amount o g s mx) f es.
Proof.
  induction es as [|e es IH]; intros v f; cbn [fold_left]; [unfold given, taken; cbn; ring|].
  rewrite IH, moved_at, (given_cons _ _ _ _ e es), (taken_cons _ _ _ _ e es). ring.
Qed.

Lemma total_put : forall v l k x, NoDup l -> In k l -> total (put v k x) l = total v l - v k + x.
Proof.
  induction l as [|y l IH]; intros k x N H; [contradiction|]. apply NoDup_cons_iff in N. destruct N as (N1 & N2). cbn [total].
  destruct (Nat.eq_dec y k) as [->|D].
  - rewrite put_same. rewrite (total_ext _ (put v k x) v l); [ring|]. intros z Hz. apply put_other. intros ->. contradiction.
  - destruct H as [->|H]; [contradiction|]. rewrite IH by auto. rewrite put_other by auto. ring.
Qed.

Lemma sides_in : forall h g e u l, plain_topo g -> In e (edges g) -> sides h g e = Some (u, l) -> In u (faces g) /\ In l (faces g).
Proof.
  intros h g e u l (_ & _ & P & _) He H. unfold sides in H.
  destruct (e_faces g e) as [|a [|b [|c r]]] eqn:E; try discriminate. destruct (P e a b He E).
  destruct (Rlt_dec _ _); injection H as <- <-; auto.
Qed.

Lemma moved_total : forall o g s mx e v, plain_topo g -> In e (edges g) ->
  total (moved o g s mx e v) (faces g) = total v (faces g).
Proof.
  intros o g s mx e v P He. unfold moved. destruct (sides (f_height s) g e) as [[u l]|] eqn:E; auto.
  destruct (sides_in _ _ _ _ _ P He E) as (Hu & Hl). pose proof (proj1 P) as N. cbv zeta.
  rewrite total_put by auto. rewrite total_put by auto. ring.
Qed.

Lemma moved_all_total : forall o g s mx es v, plain_topo g -> (forall e, In e es -> In e (edges g)) ->
  total (fold_left (fun v e => moved o g s mx e v) es v) (faces g) = total v (faces g).
Proof.
  induction es as [|e es IH]; intros v P H; cbn [fold_left]; auto.
  rewrite IH by (auto; intros; apply H; right; auto). apply moved_total; auto. apply H. left. auto.
Qed.

(** One iteration. *)
Lemma iteration_ok : forall o g s s', plain_topo g -> smoothing_iteration o g s = Ok s' ->
  exists mx hf, py_max (map (f_height s) (faces g)) = Ok mx /\ same_rest s s' /\
    f_height s' = hf /\
    (forall f, In f (faces g) -> f_chunk s' f = f_chunk s f - given (f_height s) g (amount o g s mx) f (edges g)
                                                + taken (f_height s) g (amount o g s mx) f (edges g)) /\
    total (f_chunk s') (faces g) = total (f_chunk s) (faces g) /\
    (forall f, In f (faces g) -> face_shift g s' f = Ok (hf f)) /\
    (forall n, In n (nodes g) -> n_faces g n <> [] /\ 0 <= n_height s' n /\
       n_height s' n = total hf (n_faces g n) / INR (length (n_faces g n))).
Proof.
  intros o g s s' P H. pose proof (proj1 P) as N. unfold smoothing_iteration in H.
  destruct (loop_pure fd_loc (fun s f => f_chunk s f) (fun s v k _ => ltac:(destruct s; reflexivity)) (faces g) s N)
    as (v0 & E0 & V0 & _). rewrite E0 in H. cbn [rbind] in H.
  change (f_height (w_loc s v0)) with (f_height s) in H.
  destruct (py_max (map (f_height s) (faces g))) as [mx|] eqn:Em; [|discriminate]. cbn [rbind] in H.
  rewrite exchange_run in H. cbn [rbind] in H. set (v1 := fold_left _ _ v0) in H.
  destruct (loop_pure fd_chunk (fun s f => f_loc s f) (fun s v k _ => ltac:(destruct s; reflexivity)) (faces g) (w_loc s v1) N)
    as (c & E1 & V1 & _). rewrite E1 in H. cbn [rbind] in H.
  apply define_ice_shifts_ok in H; auto. destruct H as (hf & hn & -> & Hf & Hn). exists mx, hf. split; auto.
  assert (C : forall f, In f (faces g) -> c f = f_chunk s f - given (f_height s) g (amount o g s mx) f (edges g)
                                          + taken (f_height s) g (amount o g s mx) f (edges g)).
  { intros f Hf'. rewrite V1 by auto. cbn. unfold v1. rewrite moved_all_at, V0 by auto. auto. }
  split; [unfold same_rest; cbn; tauto|]. split; [reflexivity|]. split; [intros f Hf'; cbn; auto|]. split.
  - cbn. rewrite (total_ext _ c v1); [|intros f Hf'; rewrite V1 by auto; reflexivity]. unfold v1.
    rewrite moved_all_total by auto. apply total_ext. intros f Hf'. apply V0. auto.
  - split; [|exact Hn]. intros f Hf'. rewrite <- (Hf f Hf'). reflexivity.
Qed.

Lemma same_rest_refl : forall s, same_rest s s.
Proof. intros s. unfold same_rest. tauto. Qed.

Lemma same_rest_trans : forall a b c, same_rest a b -> same_rest b c -> same_rest a c.
Proof. unfold same_rest. intros a b c H K. intuition congruence. Qed.

(** C47: the total is kept by all iterations. *)
Theorem smoothing_total : forall o g s s', plain_topo g -> heights_smoothing o g s = Ok s' ->
  total (f_chunk s') (faces g) = total (f_chunk s) (faces g) /\ same_rest s s'.
Proof.
  intros o g s s' P. unfold heights_smoothing. generalize (Z.to_nat (hsmooth_steps o)). intros n. revert s.
  induction n as [|n IH]; intros s H; cbn [repeated] in H.
  - injection H as <-. split; auto. apply same_rest_refl.
  - destruct (smoothing_iteration o g s) as [s1|] eqn:E; [|discriminate]. cbn [rbind] in H.
    apply iteration_ok in E; auto. destruct E as (mx & hf & _ & R & _ & _ & T & _). apply IH in H. destruct H as (T' & R').
    split; [congruence|]. eapply same_rest_trans; eauto.
Qed.

Lemma mx_nonneg : forall g s mx, ice_ok g s -> py_max (map (f_height s) (faces g)) = Ok mx -> 0 <= mx.
Proof.
  intros g s mx I H. destruct (faces g) as [|f r] eqn:E; [discriminate|].
  destruct (py_max_ok (map (f_height s) (f :: r)) ltac:(discriminate)) as (m & Em & Hm & Hin). rewrite H in Em. injection Em as <-.
  specialize (Hm (f_height s f) (or_introl eq_refl)). destruct (I f) as (_ & K); [rewrite E; left; auto|]. lra.
Qed.

Lemma sides_le : forall h g e u l, sides h g e = Some (u, l) -> h l <= h u.
Proof.
  intros h g e u l H. unfold sides in H. destruct (e_faces g e) as [|a [|b [|c r]]]; try discriminate.
  destruct (Rlt_dec _ _); injection H as <- <-; lra.
Qed.

Lemma mid_nonneg : forall g s f, 0 <= f_chunk s f -> 0 <= f_height s f -> 0 <= mid_area g s f.
Proof.
  intros g s f C H. unfold mid_area. destruct (Reqb (f_height s f) 0) eqn:E; [apply area_nonneg|]. apply Reqb_false in E.
  apply Rmult_le_pos; auto. apply Rlt_le, Rinv_0_lt_compat. lra.
Qed.

Lemma amount_bounds : forall o g s mx e, plain_topo g -> ice_ok g s -> 0 <= hsmooth_alfa o -> 0 <= hsmooth_beta o -> 0 <= mx ->
  In e (edges g) -> 0 <= amount o g s mx e /\
  forall u l, sides (f_height s) g e = Some (u, l) -> amount o g s mx e <= hsmooth_beta o * f_chunk s u.
Proof.
  intros o g s mx e P I A B M He. unfold amount. destruct (sides (f_height s) g e) as [[u l]|] eqn:E; [|split; [lra|discriminate]].
  destruct (sides_in _ _ _ _ _ P He E) as (Hu & Hl). pose proof (sides_le _ _ _ _ _ E) as L.
  destruct (I u Hu) as (Cu & Hu0). destruct (I l Hl) as (Cl & Hl0). pose proof (mid_nonneg g s u Cu Hu0) as Mn.
  assert (D : 0 <= Rmin (f_height s u - f_height s l) (hsmooth_alfa o * mx) <= f_height s u - f_height s l).
  { split; [apply Rmin_glb; [lra|apply Rmult_le_pos; auto]|apply Rmin_l]. }
  set (d := Rmin _ _) in *. clearbody d. split.
  - apply Rmult_le_pos; auto. apply Rmult_le_pos; lra.
  - intros u' l' K. injection K as <- <-. apply Rmult_le_compat_l; auto. unfold mid_area in *.
    destruct (Reqb (f_height s u) 0) eqn:E0.
    + apply Reqb_true in E0. replace d with 0 by lra. lra.
    + apply Reqb_false in E0. replace (f_chunk s u) with (f_height s u * (f_chunk s u / f_height s u)) at 2 by (field; auto).
      apply Rmult_le_compat_r; lra.
Qed.

Lemma taken_nonneg : forall h g q f es, (forall e, In e es -> 0 <= q e) -> 0 <= taken h g q f es.
Proof.
  intros h g q f es H. apply total_nonneg. intros e He. destruct (sides h g e) as [[u l]|]; [|lra].
  destruct (Nat.eq_dec l f); [apply H; auto|lra].
Qed.

Lemma given_bound : forall h g q f es b, 0 <= b ->
  (forall e l, In e es -> sides h g e = Some (f, l) -> q e <= b) ->
  given h g q f es <= INR (length (filter (fun e => existsb (Nat.eqb f) (e_faces g e)) es)) * b.
Proof.
  intros h g q f es b Hb. induction es as [|e es IH]; intros H; [unfold given; cbn; lra|].
  rewrite given_cons. specialize (IH (fun e l K => H e l (or_intror K))).
  assert (G : given h g q f [e] <= (if existsb (Nat.eqb f) (e_faces g e) then 1 else 0) * b).
  { unfold given. cbn [total]. destruct (sides h g e) as [[u l]|] eqn:E.
    - destruct (Nat.eq_dec u f) as [->|D].
      + assert (X : existsb (Nat.eqb f) (e_faces g e) = true).
        { unfold sides in E. destruct (e_faces g e) as [|a1 [|b1 [|c1 r1]]]; try discriminate. apply existsb_exists.
          exists f. split; [|apply Nat.eqb_refl]. destruct (Rlt_dec _ _); injection E as <- <-; cbn; auto. }
        rewrite X. specialize (H e l (or_introl eq_refl) E). lra.
      + destruct (existsb _ _); lra.
    - destruct (existsb _ _); lra. }
  cbn [filter]. destruct (existsb (Nat.eqb f) (e_faces g e)); [|lra]. cbn [length]. rewrite S_INR. lra.
Qed.

(** Ice stays non-negative. *)
Lemma after_nonneg : forall o g s mx f, plain_topo g -> three_edges g -> 0 <= hsmooth_alfa o -> 0 <= hsmooth_beta o <= 1 / 3 ->
  ice_ok g s -> 0 <= mx -> In f (faces g) ->
  0 <= f_chunk s f - given (f_height s) g (amount o g s mx) f (edges g) + taken (f_height s) g (amount o g s mx) f (edges g).
Proof.
  intros o g s mx f P T A B I M Hf'. pose proof (proj1 (I f Hf')) as C0.
  assert (G : given (f_height s) g (amount o g s mx) f (edges g) <=
    INR (length (filter (fun e => existsb (Nat.eqb f) (e_faces g e)) (edges g))) * (hsmooth_beta o * f_chunk s f)).
  { apply given_bound; [apply Rmult_le_pos; lra|]. intros e l He K.
    eapply (proj2 (amount_bounds o g s mx e P I A (proj1 B) M He)); eauto. }
  assert (L : INR (length (filter (fun e => existsb (Nat.eqb f) (e_faces g e)) (edges g))) <= 3).
  { replace 3 with (INR 3) by (cbn; lra). apply le_INR, T. auto. }
  assert (K : 0 <= taken (f_height s) g (amount o g s mx) f (edges g)).
  { apply taken_nonneg. intros e He. apply amount_bounds; tauto. }
  assert (Q : 0 <= hsmooth_beta o * f_chunk s f) by (apply Rmult_le_pos; lra).
  assert (INR (length (filter (fun e => existsb (Nat.eqb f) (e_faces g e)) (edges g))) * (hsmooth_beta o * f_chunk s f)
    <= 3 * (hsmooth_beta o * f_chunk s f)) by (apply Rmult_le_compat_r; auto).
  assert (hsmooth_beta o * f_chunk s f <= 1 / 3 * f_chunk s f) by (apply Rmult_le_compat_r; lra). lra.
Qed.

Lemma iteration_sign : forall o g s s', plain_topo g -> three_edges g -> 0 <= hsmooth_alfa o -> 0 <= hsmooth_beta o <= 1 / 3 ->
  ice_ok g s -> smoothing_iteration o g s = Ok s' -> ice_ok g s'.
Proof.
  intros o g s s' P T A B I H. apply iteration_ok in H; auto. destruct H as (mx & hf & Em & _ & Eh & C & _ & Hf & _).
  assert (M : 0 <= mx) by (eapply mx_nonneg; eauto).
  assert (CC : forall f, In f (faces g) -> 0 <= f_chunk s' f).
  { intros f Hf'. rewrite C by auto. apply after_nonneg; auto. }
  intros f Hf'. split; auto. rewrite Eh. apply (face_shift_ok g s' f (hf f)); auto.
Qed.

Theorem smoothing_sign : forall o g s s', plain_topo g -> three_edges g -> 0 <= hsmooth_alfa o -> 0 <= hsmooth_beta o <= 1 / 3 ->
  ice_ok g s -> heights_smoothing o g s = Ok s' -> ice_ok g s'.
Proof.
  intros o g s s' P T A B. unfold heights_smoothing. generalize (Z.to_nat (hsmooth_steps o)). intros n. revert s.
  induction n as [|n IH]; intros s I H; cbn [repeated] in H; [injection H as <-; auto|].
  destruct (smoothing_iteration o g s) as [s1|] eqn:E; [|discriminate]. cbn [rbind] in H.
  apply (IH s1); auto. eapply iteration_sign; eauto.
Qed.

(** C47: what one iteration does to the ice of faces. *)
Theorem iteration_flow : forall o g s s', plain_topo g -> 0 <= hsmooth_alfa o -> 0 <= hsmooth_beta o -> ice_ok g s ->
  smoothing_iteration o g s = Ok s' ->
  exists q, (forall e, In e (edges g) -> 0 <= q e) /\
    (forall e u l, In e (edges g) -> sides (f_height s) g e = Some (u, l) ->
       f_height s u = f_height s l -> q e = 0) /\
    (forall f, In f (faces g) -> f_chunk s' f = f_chunk s f - given (f_height s) g q f (edges g) + taken (f_height s) g q f (edges g)).
Proof.
  intros o g s s' P A B I H. apply iteration_ok in H; auto. destruct H as (mx & hf & Em & _ & _ & C & _).
  assert (M : 0 <= mx) by (eapply mx_nonneg; eauto). exists (amount o g s mx). split.
  - intros e He. apply amount_bounds; auto.
  - split; [|exact C]. intros e u l He K Q. unfold amount. rewrite K, Q. replace (f_height s l - f_height s l) with 0 by ring.
    rewrite Rmin_left; [ring|]. apply Rmult_le_pos; auto.
Qed.

(** Equal heights: nothing is moved. *)
Theorem iteration_equal : forall o g s s', plain_topo g -> 0 <= hsmooth_alfa o -> 0 <= hsmooth_beta o -> ice_ok g s ->
  (forall f1 f2, In f1 (faces g) -> In f2 (faces g) -> f_height s f1 = f_height s f2) ->
  smoothing_iteration o g s = Ok s' -> forall f, In f (faces g) -> f_chunk s' f = f_chunk s f.
Proof.
  intros o g s s' P A B I Eq H f Hf. destruct (iteration_flow o g s s' P A B I H) as (q & _ & Z0 & C). rewrite C by auto.
  assert (Q : forall e u l, In e (edges g) -> sides (f_height s) g e = Some (u, l) -> q e = 0).
  { intros e u l He K. apply (Z0 e u l He K). destruct (sides_in _ _ _ _ _ P He K). auto. }
  assert (G : given (f_height s) g q f (edges g) = 0 /\ taken (f_height s) g q f (edges g) = 0).
  { revert Q. generalize (edges g). unfold given, taken. induction l as [|e es IH]; intros Q; cbn [total]; [lra|].
    destruct IH as (I1 & I2); [intros e0 u l He; apply Q; right; auto|]. rewrite I1, I2.
    destruct (sides (f_height s) g e) as [[u l]|] eqn:E; [|lra].
    rewrite (Q e u l (or_introl eq_refl) E). destruct (Nat.eq_dec u f), (Nat.eq_dec l f); lra. }
  destruct G as (-> & ->). ring.
Qed.

(** The exception about negative shifts does not occur. *)
Theorem smoothing_no_negative : forall o g s, plain_topo g -> three_edges g -> 0 <= hsmooth_alfa o -> 0 <= hsmooth_beta o <= 1 / 3 ->
  ice_ok g s -> heights_smoothing o g s <> Raise EException.
Proof.
  intros o g s P T A B. unfold heights_smoothing. generalize (Z.to_nat (hsmooth_steps o)). intros n. revert s.
  induction n as [|n IH]; intros s I H; cbn [repeated] in H; [discriminate|].
  destruct (smoothing_iteration o g s) as [s1|] eqn:E; cbn [rbind] in H.
  - apply (IH s1); auto. eapply iteration_sign; eauto.
  - injection H as ->. pose proof (proj1 P) as N. unfold smoothing_iteration in E.
    destruct (loop_pure fd_loc (fun s f => f_chunk s f) (fun s v k _ => ltac:(destruct s; reflexivity)) (faces g) s N)
      as (v0 & E0 & V0 & _). rewrite E0 in E. cbn [rbind] in E.
    change (f_height (w_loc s v0)) with (f_height s) in E.
    destruct (py_max (map (f_height s) (faces g))) as [mx|e] eqn:Em; cbn [rbind] in E.
    + rewrite exchange_run in E. cbn [rbind] in E. set (v1 := fold_left _ _ v0) in E.
      destruct (loop_pure fd_chunk (fun s f => f_loc s f) (fun s v k _ => ltac:(destruct s; reflexivity)) (faces g) (w_loc s v1) N)
        as (c & E1 & V1 & _). rewrite E1 in E. cbn [rbind] in E. apply define_ice_shifts_sign in E; auto.
      intros f Hf'. cbn. rewrite V1 by auto. cbn. unfold v1. rewrite moved_all_at, V0 by auto.
      apply after_nonneg; auto. eapply mx_nonneg; eauto.
    + injection E as ->. destruct (faces g) as [|f r]; [discriminate|].
      destruct (py_max_ok (map (f_height s) (f :: r)) ltac:(discriminate)) as (m & Em' & _). congruence.
Qed.
