(** Proofs about droplet flights. *)

From Coq Require Import ZArith Reals Bool Lra Lia List.
From Verif Require Import Py PyLemmas Geom GeomSpec GeomProofs CloudProofs GeomMore Drops DropsSpec.
Import ListNotations.
Open Scope list_scope.
Open Scope R_scope.

(** ** Nearest item *)

Lemma argmin_from_ok : forall l best at_ i pre,
  length pre = i -> (at_ < i)%nat -> nth_error pre at_ = Some best ->
  (forall k x, nth_error pre k = Some x -> best <= x /\ ((k < at_)%nat -> best < x)) ->
  exists b, nth_error (pre ++ l) (argmin_from best at_ i l) = Some b /\
    forall k x, nth_error (pre ++ l) k = Some x -> b <= x /\ ((k < argmin_from best at_ i l)%nat -> b < x).
Proof.
  induction l as [|y r IH]; cbn; intros best at_ i pre L Hlt Hn Hm.
  - exists best. rewrite app_nil_r. auto.
  - replace (pre ++ y :: r) with ((pre ++ [y]) ++ r) by (rewrite <- app_assoc; auto).
    destruct (Rltb y best) eqn:E.
    + apply Rltb_true in E. apply IH.
      * rewrite app_length; cbn; lia.
      * lia.
      * rewrite nth_error_app2, L, Nat.sub_diag by lia. auto.
      * intros k x Hk. destruct (Nat.lt_ge_cases k i) as [Q|Q].
        { rewrite nth_error_app1 in Hk by lia. destruct (Hm _ _ Hk). split; [lra|intros; lra]. }
        { rewrite nth_error_app2 in Hk by lia. destruct (k - length pre)%nat eqn:Z; cbn in Hk; [|destruct n; discriminate].
          inversion Hk; subst x. split; [lra|intros; lia]. }
    + apply Rltb_false in E. apply IH.
      * rewrite app_length; cbn; lia.
      * lia.
      * rewrite nth_error_app1 by lia. auto.
      * intros k x Hk. destruct (Nat.lt_ge_cases k i) as [Q|Q].
        { rewrite nth_error_app1 in Hk by lia. apply (Hm _ _ Hk). }
        { rewrite nth_error_app2 in Hk by lia. destruct (k - length pre)%nat eqn:Z; cbn in Hk; [|destruct n; discriminate].
          inversion Hk; subst x. split; [lra|intros; lia]. }
Qed.

Lemma argmin_ok : forall l, l <> [] -> exists i b, argmin l = Ok i /\ nth_error l i = Some b /\
  forall k x, nth_error l k = Some x -> b <= x /\ ((k < i)%nat -> b < x).
Proof.
  intros [|x r] H; [congruence|]. cbn.
  destruct (argmin_from_ok r x 0 1 [x]) as (b & Hb & Hm); auto.
  - intros [|k] y Hk; cbn in Hk; [inversion Hk; subst; split; [lra|intros; lia]|destruct k; discriminate].
  - exists (argmin_from x 0 1 r), b. auto.
Qed.

Lemma nearest_at : forall A (at_ : A -> vect) (l : list A) p i e,
  nth_error l i = Some e ->
  (forall k x, nth_error (map (fun d => vmod (vsub (at_ d) p)) l) k = Some x ->
     vmod (vsub (at_ e) p) <= x /\ ((k < i)%nat -> vmod (vsub (at_ e) p) < x)) ->
  first_nearest at_ l p e.
Proof.
  intros A at_ l p i e Hi Hm. destruct (nth_error_split _ _ Hi) as (l1 & l2 & -> & L).
  exists l1, l2. split; auto. split; intros x Hx.
  - destruct (In_nth_error _ _ Hx) as [k Hk].
    assert (k < length l1)%nat by (apply nth_error_Some; congruence).
    destruct (Hm k (vmod (vsub (at_ x) p))) as [_ Q].
    + rewrite nth_error_map, nth_error_app1, Hk by lia. auto.
    + apply Q. lia.
  - destruct (In_nth_error _ _ Hx) as [k Hk].
    destruct (Hm (length l1 + S k)%nat (vmod (vsub (at_ x) p))) as [Q _]; auto.
    rewrite nth_error_map, nth_error_app2 by lia. replace (length l1 + S k - length l1)%nat with (S k) by lia.
    cbn. rewrite Hk. auto.
Qed.

Theorem find_nearest_ok : forall s p, s_ds s <> [] ->
  exists d, find_nearest s p = Ok d /\ first_nearest fst (s_ds s) p d.
Proof.
  intros s p H. unfold find_nearest.
  destruct (argmin_ok (map (fun d => vmod (vsub (fst d) p)) (s_ds s))) as (i & b & E & Hb & Hm).
  - destruct (s_ds s); cbn; congruence.
  - rewrite E. cbn [rbind]. rewrite nth_error_map in Hb. destruct (nth_error (s_ds s) i) as [d|] eqn:Hd; [|discriminate].
    cbn in Hb. inversion Hb; subst b. exists d. split; auto. apply (nearest_at _ fst _ _ i); auto.
Qed.

(** ** One step *)

Lemma vis_pos : 0 < air_vis. Proof. unfold air_vis. lra. Qed.

Lemma Rpower_pos : forall x y, 0 < Rpower x y.
Proof. intros. unfold Rpower. apply exp_pos. Qed.

Lemma drag_ok : forall re, 0 < re -> drag re = Ok (drag_coef re).
Proof.
  intros re H. unfold drag, drag_coef, py_div, py_pow, Rleb.
  rewrite (proj2 (Rltb_false re 0)) by lra. rewrite (proj2 (Reqb_false re 0)) by lra.
  destruct (Rle_dec re 350); reflexivity.
Qed.

Lemma drag_coef_pos : forall re, 0 < re -> 0 < drag_coef re.
Proof.
  intros re H. unfold drag_coef. destruct (Rle_dec re 350).
  - apply Rmult_lt_0_compat.
    + apply Rdiv_lt_0_compat; lra.
    + pose proof (Rpower_pos re (33/100)). lra.
  - pose proof (Rpower_pos re (217/1000)). lra.
Qed.

Lemma reynolds_pos : forall u d, 0 < u -> 0 < d -> 0 < reynolds u d.
Proof. intros. unfold reynolds. apply Rdiv_lt_0_compat; [apply Rmult_lt_0_compat; auto|lra]. Qed.

Lemma drag_rate_pos : forall u d, 0 < u -> 0 < d -> 0 < drag_rate u d.
Proof.
  intros u d Hu Hd. unfold drag_rate. pose proof (drag_coef_pos _ (reynolds_pos u d Hu Hd)).
  apply Rmult_lt_0_compat; auto. apply Rmult_lt_0_compat; [lra|]. apply Rdiv_lt_0_compat; lra.
Qed.

Lemma vect_eq : forall a b, vx a = vx b -> vy a = vy b -> vz a = vz b -> a = b.
Proof. intros [? ? ?] [? ? ?]; cbn; intros; subst; auto. Qed.

Lemma vmod_0 : forall a, vmod a = 0 -> a = V3 0 0 0.
Proof.
  intros a H. unfold vmod in H. apply sqrt_eq_0 in H; [|unfold mod2, dot; nra].
  unfold mod2, dot in H. apply vect_eq; cbn; nra.
Qed.

Lemma vmod_zero : vmod (V3 0 0 0) = 0.
Proof. unfold vmod, mod2, dot; cbn. replace (0*0+0*0+0*0) with 0 by ring. apply sqrt_0. Qed.

Lemma vmod_pos_ne : forall v w, v <> w -> 0 < dist_to v w.
Proof.
  intros v w H. unfold dist_to. destruct (Rtotal_order 0 (vmod (vsub v w))) as [Q|[Q|Q]]; auto.
  - exfalso. apply H. symmetry in Q. apply vmod_0 in Q. unfold vsub in Q. inversion Q. apply vect_eq; lra.
  - exfalso. unfold vmod in Q. pose proof (sqrt_pos (mod2 (vsub v w))). lra.
Qed.

Lemma dist_self : forall v, dist_to v v = 0.
Proof. intros v. unfold dist_to, vsub. rewrite !Rminus_diag_eq by auto. apply vmod_zero. Qed.

Theorem fly_step_ok : forall p v w d dt, 0 < d -> v <> w ->
  exists p' v', fly_step p v w d dt = Ok (p', v') /\ moved d dt w p v p' v'.
Proof.
  intros p v w d dt Hd Hv. pose proof (vmod_pos_ne v w Hv) as Hu. pose proof (reynolds_pos _ _ Hu Hd) as Hr.
  unfold fly_step. change (vmod (vsub v w)) with (dist_to v w) in *.
  change (dist_to v w * d / air_vis) with (reynolds (dist_to v w) d). rewrite drag_ok by auto. cbn [rbind].
  unfold py_div. rewrite (proj2 (Reqb_false (d * wtr_dns) 0)) by (unfold wtr_dns; lra). cbn [rbind].
  eexists _, _. split; [reflexivity|]. split; auto.
  unfold drag_rate, air_dns, wtr_dns. apply vect_eq; cbn; ring.
Qed.

Theorem fly_step_raise : forall p v w d dt, d = 0 \/ v = w -> fly_step p v w d dt = Raise EZeroDivisionError.
Proof.
  intros p v w d dt H. unfold fly_step.
  replace (vmod (vsub v w) * d / air_vis) with 0.
  - unfold drag. replace (Rleb 0 350) with true by (symmetry; apply Rleb_true; lra).
    unfold py_div. rewrite (proj2 (Reqb_true 0 0)) by auto. auto.
  - destruct H as [->| ->]; [|fold (dist_to w w); rewrite dist_self]; unfold Rdiv; ring.
Qed.

Theorem fly_step_negative : forall p v w d dt, d < 0 -> v <> w -> fly_step p v w d dt = Raise EValueError.
Proof.
  intros p v w d dt H Hv. pose proof (vmod_pos_ne v w Hv) as Hu. unfold fly_step.
  change (vmod (vsub v w)) with (dist_to v w).
  assert (Hr : dist_to v w * d / air_vis < 0).
  { unfold Rdiv. apply Ropp_lt_cancel. rewrite Ropp_0, Ropp_mult_distr_l, Ropp_mult_distr_r.
    apply Rmult_lt_0_compat; [apply Rmult_lt_0_compat; lra|apply Rinv_0_lt_compat, vis_pos]. }
  unfold drag. rewrite (proj2 (Rleb_true _ 350)) by lra. unfold py_div.
  rewrite (proj2 (Reqb_false _ 0)) by lra. cbn [rbind]. unfold py_pow. rewrite (proj2 (Rltb_true _ 0)) by auto. auto.
Qed.

(** ** The loop of fly *)

Lemma py_get_snoc : forall A (l : list A) x, py_get (l ++ [x]) (-1) = Ok x.
Proof.
  intros A l x. unfold py_get, py_index. rewrite app_length. cbn [length].
  replace (0 <=? -1)%Z with false by reflexivity.
  destruct (Z.leb_spec 0 (Z.of_nat (length l + 1) + -1)) as [H|H]; [|lia].
  replace (Z.to_nat (Z.of_nat (length l + 1) + -1)) with (length l) by lia.
  rewrite nth_error_app2, Nat.sub_diag by lia; auto.
Qed.

Lemma leg_snoc : forall q lp fp i a b, leg ((q ++ [lp]) ++ [fp]) i a b ->
  (leg (q ++ [lp]) i a b /\ (i < length q)%nat) \/ (i = length q /\ a = lp /\ b = fp).
Proof.
  intros q lp fp i a b [Ha Hb].
  assert (S i < length ((q ++ [lp]) ++ [fp]))%nat by (apply nth_error_Some; congruence).
  rewrite !app_length in H; cbn in H. destruct (Nat.eq_dec i (length q)) as [->|N].
  - right. rewrite nth_error_app1 in Ha by (rewrite app_length; cbn; lia).
    rewrite nth_error_app2, Nat.sub_diag in Ha by lia.
    rewrite nth_error_app2 in Hb by (rewrite app_length; cbn [length]; lia). 
    replace (S (length q) - length (q ++ [lp]))%nat with 0%nat in Hb by (rewrite app_length; cbn [length]; lia). cbn [nth_error] in Ha, Hb. repeat split; congruence.
  - left. rewrite nth_error_app1 in Ha, Hb by (rewrite app_length; cbn; lia). split; [split; auto|lia].
Qed.

Lemma trajectory_snoc : forall ds d dt q lp fp us v v' n,
  trajectory ds d dt (q ++ [lp]) (us ++ [v]) -> first_nearest fst ds lp n -> moved d dt (snd n) lp v fp v' ->
  trajectory ds d dt ((q ++ [lp]) ++ [fp]) ((us ++ [v]) ++ [v']).
Proof.
  intros ds d dt q lp fp us v v' n [L T] Hn Hm. split.
  - rewrite !app_length in *. cbn in *. lia.
  - rewrite !app_length in L. cbn in L. intros i a b u u' H1 H2.
    apply leg_snoc in H1. apply leg_snoc in H2.
    destruct H1 as [[H1 I1]|(-> & -> & ->)]; destruct H2 as [[H2 I2]|(? & -> & ->)]; try lia.
    + apply (T i a b u u'); auto.
    + exists n. auto.
Qed.

Lemma trajectory_one : forall ds d dt p v, trajectory ds d dt [p] [v].
Proof.
  intros. split; auto. intros i a b u u' [_ H]. cbn in H. destruct i; discriminate.
Qed.

(** The points so far, with the velocities, before the flight ends. *)
Record underway (s : space) (c : cloud) (d dt : R) (p v0 : vect) (pts vs : list vect) : Prop := Underway {
  uw_start : hd_error pts = Some p;
  uw_speed : hd_error vs = Some v0;
  uw_traj : trajectory (s_ds s) d dt pts vs;
  uw_inside : forall x, In x (removelast pts) -> inside s x = true
}.
Definition quiet (c : cloud) (pts : list vect) : Prop := forall i a b, leg pts i a b -> first_intersection (Seg a b) c = Ok None.
Definition quiet_before (c : cloud) (pts : list vect) : Prop :=
  forall i a b, leg pts i a b -> (S (S i) < length pts)%nat -> first_intersection (Seg a b) c = Ok None.

(** How a flight ends. *)
Definition ended (s : space) (c : cloud) (dt : R) (max_steps : Z) (pts vs : list vect) (vd : verdict) (f : option nat) : Prop :=
  match vd with
  | VN => f = None /\ quiet c pts /\ (max_steps < Z.of_nat (length pts))%Z
  | VO => f = None /\ quiet c pts /\ exists q x, pts = q ++ [x] /\ inside s x = false
  | VS => f = None /\ quiet c pts /\ exists q x us v, pts = q ++ [x] /\ vs = us ++ [v] /\ inside s x = true /\ vmod (vmul v dt) < eps15
  | VC => quiet_before c pts /\ exists q a b t, pts = q ++ [a; b] /\ first_intersection (Seg a b) c = Ok (Some t) /\ f = Some (t_ref t)
  end.

Lemma hd_snoc : forall A (l : list A) x y, hd_error l = Some y -> hd_error (l ++ [x]) = Some y.
Proof. intros A [|z l] x y H; cbn in *; [discriminate|auto]. Qed.

Lemma fly_loop_ok : forall s c d dt max_steps p v0, s_ds s <> [] -> (forall sg, exists r, first_intersection sg c = Ok r) -> 0 < d ->
  forall k q lp us v, (1 <= k)%nat ->
  (length q + 1 + k = Z.to_nat max_steps + 2)%nat ->
  underway s c d dt p v0 (q ++ [lp]) (us ++ [v]) -> quiet c (q ++ [lp]) ->
  (exists vd f pts vs, fly_loop k s d dt c max_steps (q ++ [lp]) v = Ok (vd, f, pts) /\
     underway s c d dt p v0 pts vs /\ (length pts <= Z.to_nat max_steps + 1)%nat /\ ended s c dt max_steps pts vs vd f) \/
  (fly_loop k s d dt c max_steps (q ++ [lp]) v = Raise EZeroDivisionError /\
   exists q' x us' n, underway s c d dt p v0 (q' ++ [x]) (us' ++ [snd n]) /\ first_nearest fst (s_ds s) x n).
Proof.
  intros s c d dt max_steps p v0 Hs Hc Hd.
  induction k as [|k IH]; intros q lp us v K L U Q; [lia|]. cbn [fly_loop]. unfold last_point.
  rewrite py_get_snoc. cbn [rbind].
  assert (Len : length (q ++ [lp]) = (length q + 1)%nat) by (rewrite app_length; auto).
  destruct (Z.gtb_spec (Z.of_nat (length (q ++ [lp]))) max_steps) as [G|G].
  { left. exists VN, None, (q ++ [lp]), (us ++ [v]). repeat (split; auto); try lia. }
  destruct (inside s lp) eqn:I; cbn [negb].
  2: { left. exists VO, None, (q ++ [lp]), (us ++ [v]). repeat (split; auto); try lia. exists q, lp. auto. }
  destruct (find_nearest_ok s lp Hs) as (n & En & Hn). rewrite En. cbn [rbind].
  assert (Dec : v = snd n \/ v <> snd n).
  { destruct v as [a1 a2 a3], (snd n) as [b1 b2 b3].
    destruct (Req_EM_T a1 b1), (Req_EM_T a2 b2), (Req_EM_T a3 b3); subst; auto; right; congruence. }
  destruct Dec as [E|E].
  { right. rewrite fly_step_raise by auto. split; auto. exists q, lp, us, n. rewrite <- E. auto. }
  destruct (fly_step_ok lp v (snd n) d dt Hd E) as (fp & v' & Ef & Hm). rewrite Ef. cbn [rbind fst snd].
  destruct (is_near_v fp lp eps15) eqn:Nr.
  { left. exists VS, None, (q ++ [lp]), (us ++ [v]). repeat (split; auto); try lia. exists q, lp, us, v. repeat (split; auto).
    unfold is_near_v in Nr. apply Rltb_true in Nr. unfold dist_to in Nr. destruct Hm as [-> _].
    replace (vmul v dt) with (vsub (vadd lp (vmul v dt)) lp) by (apply vect_eq; cbn; ring). auto. }
  assert (U' : underway s c d dt p v0 ((q ++ [lp]) ++ [fp]) ((us ++ [v]) ++ [v'])).
  { destruct U as [U1 U2 U3 U4]. constructor; try (apply hd_snoc; auto).
    - eapply trajectory_snoc; eauto.
    - rewrite removelast_last. rewrite removelast_last in U4. intros x Hx. apply in_app_or in Hx.
      destruct Hx as [Hx|[<-|[]]]; auto. }
  destruct (Hc (Seg lp fp)) as [[t|] Eh]; rewrite Eh; cbn [rbind].
  { left. exists VC, (Some (t_ref t)), ((q ++ [lp]) ++ [fp]), ((us ++ [v]) ++ [v']).
    split; auto. split; auto. split; [rewrite !app_length; cbn; lia|]. split.
    - intros i a b Hl Hi. rewrite !app_length in Hi. cbn in Hi. apply leg_snoc in Hl.
      destruct Hl as [[Hl _]|(-> & _)]; [eauto|lia].
    - exists q, lp, fp, t. split; auto. rewrite <- app_assoc. auto. }
  apply (IH (q ++ [lp]) fp (us ++ [v]) v'); auto; try lia.
  - intros i a b Hl. apply leg_snoc in Hl. destruct Hl as [[Hl _]|(_ & -> & ->)]; eauto.
Qed.

(** ** fly *)

Lemma make_space_ok : forall ds, ds <> [] -> exists b, box_of (map fst ds) = Ok b /\ make_space ds = Ok (Space ds b).
Proof.
  intros ds H. unfold make_space. destruct ds as [|x r]; [congruence|].
  unfold box_of. cbn. eexists. split; reflexivity.
Qed.

Lemma cloud_answers : forall l c, l <> [] -> triangles_cloud l = Ok c -> forall sg, exists r, first_intersection sg c = Ok r.
Proof.
  intros l c Hl E sg. destruct (first_intersection_any l sg Hl) as (c' & r & E' & Er & _). exists r. congruence.
Qed.

Lemma no_hit : forall l c a b, l <> [] -> triangles_cloud l = Ok c -> first_intersection (Seg a b) c = Ok None ->
  crosswise l a b -> forall t x, In t l -> ~ common t (Seg a b) x.
Proof.
  intros l c a b Hl E H Hc. destruct (first_intersection_ok l (Seg a b) Hl Hc) as (c' & r & E' & Er & R).
  assert (c' = c) by congruence. subst c'. rewrite H in Er. inversion Er; subst r. auto.
Qed.

Lemma hit_common : forall l c a b t, l <> [] -> triangles_cloud l = Ok c -> first_intersection (Seg a b) c = Ok (Some t) ->
  In t l /\ (crosswise l a b -> exists x, common t (Seg a b) x).
Proof.
  intros l c a b t Hl E H. split.
  - destruct (first_intersection_any l (Seg a b) Hl) as (c' & r & E' & Er & R).
    assert (c' = c) by congruence. subst c'. rewrite H in Er. inversion Er; subst r. tauto.
  - intros Hc. destruct (first_intersection_ok l (Seg a b) Hl Hc) as (c' & r & E' & Er & R).
    assert (c' = c) by congruence. subst c'. rewrite H in Er. inversion Er; subst r. tauto.
Qed.

Theorem fly_ok : forall ds l p vel d dt max_steps, ds <> [] -> l <> [] -> 0 < d ->
  exists b s c, box_of (map fst ds) = Ok b /\ make_space ds = Ok s /\ triangles_cloud l = Ok c /\
  ((exists vd f pts vs,
      fly s p vel d dt c max_steps = Ok (vd, f, pts) /\
      hd_error pts = Some p /\ hd_error vs = Some vel /\ trajectory ds d dt pts vs /\
      (forall x, In x (removelast pts) -> in_box b x) /\
      (length pts <= Z.to_nat max_steps + 1)%nat /\
      (forall i x y t z, leg pts i x y -> (S (S i) < length pts)%nat \/ vd <> VC -> crosswise l x y -> In t l -> ~ common t (Seg x y) z) /\
      match vd with
      | VN => f = None /\ (max_steps < Z.of_nat (length pts))%Z
      | VO => f = None /\ exists q x, pts = q ++ [x] /\ ~ in_box b x
      | VS => f = None /\ exists q x us v, pts = q ++ [x] /\ vs = us ++ [v] /\ in_box b x /\ vmod (vmul v dt) < / 1000000000000000
      | VC => exists q x y t, pts = q ++ [x; y] /\ In t l /\ f = Some (t_ref t) /\
                (crosswise l x y -> exists z, common t (Seg x y) z)
      end) \/
   (fly s p vel d dt c max_steps = Raise EZeroDivisionError /\
    exists q x us n, hd_error (q ++ [x]) = Some p /\ hd_error (us ++ [snd n]) = Some vel /\
      trajectory ds d dt (q ++ [x]) (us ++ [snd n]) /\ first_nearest fst ds x n)).
Proof.
  intros ds l p vel d dt max_steps Hds Hl Hd.
  destruct (make_space_ok ds Hds) as (b & Eb & Es).
  destruct (first_intersection_any l (Seg p p) Hl) as (c & r0 & Ec & _).
  exists b, (Space ds b), c. repeat (split; auto). unfold fly.
  destruct (fly_loop_ok (Space ds b) c d dt max_steps p vel Hds (cloud_answers l c Hl Ec) Hd (S (Z.to_nat max_steps)) [] p [] vel)
    as [(vd & f & pts & vs & E & U & L & F)|(E & q & x & us & n & U & N)].
  - lia.
  - cbn [length]; lia.
  - constructor; cbn; auto using trajectory_one.
  - intros i a a' [_ H]. cbn in H. destruct i; discriminate.
  - left. exists vd, f, pts, vs. destruct U as [U1 U2 U3 U4]. cbn in U3.
    refine (conj E (conj U1 (conj U2 (conj U3 (conj _ (conj L (conj _ _))))))).
    + intros x Hx. apply is_point_inside_ok. apply (U4 x Hx).
    + intros i x y t z Hg Hi Hc Ht. apply (no_hit l c x y Hl Ec); auto.
      destruct vd; cbn [ended] in F; try (apply (proj1 (proj2 F) i); auto; fail).
      destruct F as [F _]. apply (F i); auto. destruct Hi; auto. congruence.
    + destruct vd; cbn [ended] in F.
      * destruct F as (F1 & _ & F2); auto.
      * destruct F as (F1 & _ & q & x & F2 & F3). split; auto. exists q, x. split; auto.
        intros Q. apply is_point_inside_ok in Q. unfold inside in F3. cbn in F3. congruence.
      * destruct F as (F1 & _ & q & x & us & v & F2 & F3 & F4 & F5). split; auto. exists q, x, us, v.
        apply is_point_inside_ok in F4. auto.
      * destruct F as (_ & q & x & y & t & F2 & F3 & F4). exists q, x, y, t. split; auto.
        destruct (hit_common l c x y t Hl Ec F3); auto.
  - right. split; auto. exists q, x, us, n. destruct U as [U1 U2 U3 U4]. auto.
Qed.

(** ** Flights of one leg *)

Lemma fly_first : forall s ds b c p vel w d dt max_steps, s = Space ds b -> ds <> [] -> 0 < d -> (1 <= max_steps)%Z ->
  is_point_inside b p = true -> (forall e, In e ds -> snd e = w) -> vel <> w -> / 1000000000000000 <= vmod (vmul vel dt) ->
  exists v', fly s p vel d dt c max_steps =
    match first_intersection (Seg p (vadd p (vmul vel dt))) c with
    | Ok (Some t) => Ok (VC, Some (t_ref t), [p; vadd p (vmul vel dt)])
    | Ok None => fly_loop (Z.to_nat max_steps) s d dt c max_steps [p; vadd p (vmul vel dt)] v'
    | Raise e => Raise e
    end.
Proof.
  intros s ds b c p vel w d dt max_steps -> Hds Hd Hm Hi Hw Hv Hn. unfold fly. cbn [fly_loop].
  change (last_point [p]) with (@Ok vect p). cbn [rbind List.length].
  destruct (Z.gtb_spec (Z.of_nat 1) max_steps); [lia|]. unfold inside. cbn [s_bx]. rewrite Hi. cbn [negb].
  destruct (find_nearest_ok (Space ds b) p Hds) as (n & En & Fn). rewrite En. cbn [rbind].
  assert (Wn : snd n = w) by (apply Hw; destruct Fn as (l1 & l2 & Q & _); cbn in Q; rewrite Q; apply in_or_app; cbn; auto).
  rewrite Wn. destruct (fly_step_ok p vel w d dt Hd Hv) as (p' & v' & Es & M1 & M2). rewrite Es. cbn [rbind fst snd]. subst p'.
  exists v'. replace (is_near_v (vadd p (vmul vel dt)) p eps15) with false.
  - cbn [app]. destruct (first_intersection _ c) as [[t|]|e]; reflexivity.
  - symmetry. apply Rltb_false. unfold dist_to, eps15.
    replace (vsub (vadd p (vmul vel dt)) p) with (vmul vel dt) by (apply vect_eq; cbn; ring). auto.
Qed.
