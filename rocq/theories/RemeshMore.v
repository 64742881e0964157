(** Proofs about moving nodes in smoothing.py, options that are refused, and sample
    surfaces. *)

From Coq Require Import ZArith Reals Bool Lra Lia List.
From Verif Require Import Py Geom GeomSpec GeomProofs CloudProofs GeomMore Remesh RemeshSpec RemeshProofs DirProofs SmoothProofs StepsProofs GrowthProofs FlatProofs.
Import ListNotations.
Open Scope R_scope.

(** ** apply_shifts *)

Lemma move_node_eq : forall fix_ border n v s, move_node fix_ border n v s =
  if (fix_ && border n)%bool then s else w_pos s (put (n_pos s) n (vadd (n_pos s n) v)).
Proof. intros [] border n v s; cbn; auto. Qed.

Lemma shifts_loop : forall fix_ border ns vs s, NoDup ns -> length ns = length vs -> exists p,
  loop (combine ns vs) (fun q s => Ok (move_node fix_ border (fst q) (snd q) s)) s = Ok (w_pos s p) /\
  (forall i n v, nth_error ns i = Some n -> nth_error vs i = Some v ->
     p n = if (fix_ && border n)%bool then n_pos s n else vadd (n_pos s n) v) /\
  (forall n, ~ In n ns -> p n = n_pos s n).
Proof.
  intros fix_ border. induction ns as [|n ns IH]; intros vs s N L; destruct vs as [|v vs]; try discriminate.
  - exists (n_pos s). split; [destruct s; reflexivity|]. split; auto. intros [|i] n v H; discriminate.
  - apply NoDup_cons_iff in N. destruct N as (N1 & N2). cbn [combine loop rbind fst snd]. rewrite move_node_eq.
    destruct (fix_ && border n)%bool eqn:B.
    + destruct (IH vs s N2 ltac:(injection L; auto)) as (p & R & V1 & V2). exists p. split; auto. split.
      * intros [|i] m w Hm Hw; cbn in Hm, Hw; [|eauto]. injection Hm as <-. injection Hw as <-. rewrite B. auto.
      * intros m Hm. apply V2. intros K. apply Hm. right. auto.
    + match goal with |- context [loop _ _ ?s1] => destruct (IH vs s1 N2 ltac:(injection L; auto)) as (p & R & V1 & V2) end.
      exists p. split; [rewrite R; destruct s; reflexivity|]. cbn [n_pos w_pos] in V1, V2. split.
      * intros [|i] m w Hm Hw; cbn in Hm, Hw.
        -- injection Hm as <-. injection Hw as <-. rewrite B, V2, put_same by auto. auto.
        -- rewrite (V1 i m w Hm Hw). assert (m <> n) by (intros ->; apply N1; eapply nth_error_In; eauto).
           rewrite put_other by auto. auto.
      * intros m Hm. rewrite V2 by (intros K; apply Hm; right; auto). apply put_other. intros ->. apply Hm. left. auto.
Qed.

Theorem apply_shifts_ok : forall fix_ border g shifts s, NoDup (nodes g) -> length (nodes g) = length shifts -> exists p,
  apply_shifts fix_ border g shifts s = Ok (w_pos s p) /\
  (forall i n v, nth_error (nodes g) i = Some n -> nth_error shifts i = Some v ->
     (fix_ = true /\ border n = true -> p n = n_pos s n) /\
     (fix_ = false \/ border n = false -> p n = vadd (n_pos s n) v)) /\
  (forall n, ~ In n (nodes g) -> p n = n_pos s n).
Proof.
  intros fix_ border g shifts s N L. unfold apply_shifts. rewrite L, Nat.eqb_refl. cbn [negb].
  destruct (shifts_loop fix_ border (nodes g) shifts s N L) as (p & R & V1 & V2). exists p. split; auto. split; auto.
  intros i n v Hn Hv. rewrite (V1 i n v Hn Hv). split.
  - intros (-> & ->). auto.
  - intros [->| ->]; cbn; auto. rewrite andb_false_r. auto.
Qed.

Theorem apply_shifts_refused : forall fix_ border g shifts s, length (nodes g) <> length shifts ->
  apply_shifts fix_ border g shifts s = Raise EAssertionError.
Proof. intros. unfold apply_shifts. destruct (Nat.eqb_spec (length (nodes g)) (length shifts)); [contradiction|auto]. Qed.

(** ** Options with which no run can end *)

Theorem pseudo_2d_refused : forall o g s s', pseudo_2d_oz o = true -> remesh o g s <> Ok s'.
Proof.
  intros o g s s' H R. unfold remesh in R. destruct (plan_ice g s) as [s1|]; [|discriminate]. cbn [rbind] in R.
  destruct (calculate_nsteps o g s1) as [k|]; [|discriminate]. cbn [rbind] in R. rewrite H in R.
  unfold clusterize_nodes in R. destruct (nodes g); discriminate.
Qed.

Lemma nss_step_refused : forall o g s s', (0 < nss_steps o)%Z -> remesh_step o g s <> Ok s'.
Proof.
  intros o g s s' H R. unfold remesh_step in R.
  destruct (init_ice_dirs g s) as [s1|]; [|discriminate]. cbn [rbind] in R.
  destruct (normals_smoothing o g s1) as [s2|]; [|discriminate]. cbn [rbind] in R.
  destruct (define_ice_shifts g s2) as [s3|]; [|discriminate]. cbn [rbind] in R.
  destruct (heights_smoothing o g s3) as [s4|]; [|discriminate]. cbn [rbind] in R.
  destruct (move_nodes o g s4) as [s5|]; [|discriminate]. cbn [rbind] in R.
  destruct (remember_current_areas g s5) as [s6|]; [|discriminate]. cbn [rbind] in R.
  unfold null_space_smoothing in R. destruct (Z.ltb_spec 0 (nss_steps o)); [|lia].
  destruct (nodes g), (faces g), (edges g); discriminate.
Qed.

Theorem nss_refused : forall o g s s' k, (0 < nss_steps o)%Z -> calculate_nsteps o g s = Ok k -> (1 <= k)%Z -> plain_topo g ->
  remesh o g s <> Ok s'.
Proof.
  intros o g s s' k H Hk K P R. unfold remesh in R. destruct (plan_ok g s P) as (t & r & a & E & _). rewrite E in R. cbn [rbind] in R.
  replace (calculate_nsteps o g (w_actual (w_rest (w_target s t) r) a)) with (calculate_nsteps o g s) in R by (destruct s; reflexivity).
  rewrite Hk in R. cbn [rbind] in R. destruct (if pseudo_2d_oz o then _ else _); [|discriminate]. cbn [rbind] in R.
  destruct (Z.to_nat k) as [|m] eqn:Em; [lia|]. cbn [steps] in R.
  destruct (calc_ice_chunks _ _ _) as [s1|]; [|discriminate]. cbn [rbind] in R.
  destruct (remesh_step o g s1) as [s2|] eqn:E2; [|discriminate]. eapply nss_step_refused; eauto.
Qed.

(** ** Moves of nodes in one step *)

Lemma heights_nonneg : forall o g s s', plain_topo g -> heights_smoothing o g s = Ok s' ->
  (forall k, In k (nodes g) -> 0 <= n_height s k) -> forall k, In k (nodes g) -> 0 <= n_height s' k.
Proof.
  intros o g s s' P H H0. unfold heights_smoothing in H. revert H.
  apply (repeated_inv (fun x => forall k, In k (nodes g) -> 0 <= n_height x k)); auto.
  intros a b _ E k Hk. apply iteration_ok in E; auto. destruct E as (mx & hf & _ & _ & _ & _ & _ & _ & N). apply (N k Hk).
Qed.

Lemma vmod_triangle_move : forall p d h, 0 <= h -> vmod d <= 1 -> vmod (vsub (vadd p (vmul d h)) p) <= h.
Proof.
  intros p d h H D. replace (vsub (vadd p (vmul d h)) p) with (vmul d h) by (unfold vsub, vadd, vmul; apply vect_eq; cbn; ring).
  rewrite vmod_vmul by auto. pose proof (Rmult_le_compat_r h (vmod d) 1 H D). lra.
Qed.

Theorem step_moves : forall o g s s', whole g -> 0 < nsmooth_k o -> remesh_step o g s = Ok s' ->
  forall k, In k (nodes g) -> 0 <= n_height s' k /\ vmod (n_dir s' k) <= 1 /\
    n_pos s' k = vadd (n_pos s k) (vmul (n_dir s' k) (n_height s' k)) /\
    vmod (vsub (n_pos s' k) (n_pos s k)) <= n_height s' k.
Proof.
  intros o g s s' W K H k Hk. pose proof W as (P & _). unfold remesh_step in H.
  destruct (init_ice_dirs g s) as [s1|] eqn:E1; [|discriminate]. cbn [rbind] in H.
  destruct (normals_smoothing o g s1) as [s2|] eqn:E2; [|discriminate]. cbn [rbind] in H.
  destruct (define_ice_shifts g s2) as [s3|] eqn:E3; [|discriminate]. cbn [rbind] in H.
  destruct (heights_smoothing o g s3) as [s4|] eqn:E4; [|discriminate]. cbn [rbind] in H.
  destruct (move_nodes_ok o g s4 P) as (m & r & a & p & E5 & M1 & M2 & A1 & A2). rewrite E5 in H. cbn [rbind] in H.
  apply tail_ok in H; auto. destruct H as (sv & r' & -> & T1 & T2).
  pose proof (directions_short o g s s1 s2 P (whole_closed g W) K E1 E2) as (_ & S).
  apply init_ice_dirs_ok in E1; auto. destruct E1 as (df & dn & -> & _).
  apply normals_frame in E2; auto. destruct E2 as (df' & dn' & ->).
  apply define_ice_shifts_ok in E3; auto. destruct E3 as (hf & hn & -> & _ & Hn).
  pose proof (heights_nonneg _ _ _ _ P E4 (fun k Hk => proj1 (proj2 (Hn k Hk))) k Hk) as Pos.
  apply smoothing_total in E4; auto. destruct E4 as (_ & SR). unfold same_rest in SR.
  destruct SR as (Q1 & Q2 & _). cbn [n_pos n_dir n_height w_rest w_saved w_pos w_actual w_move].
  destruct (M1 k Hk) as (Mk & Pk). specialize (S k Hk).
  assert (D : vmod (n_dir s4 k) <= 1) by (rewrite Q2; exact S).
  assert (X : n_pos s4 k = n_pos s k) by (rewrite Q1; destruct s; reflexivity).
  rewrite Pk, Mk, X. split; auto. split; auto. split; auto. apply vmod_triangle_move; auto.
Qed.

(** ** The balance of a whole run *)

Lemma steps_balance : forall o g k s s' (T : nat -> R), plain_topo g -> rest_volume_redistr o = true ->
  (forall f, In f (faces g) -> T f <= f_rest s f + f_actual s f /\ (0 < f_rest s f -> f_rest s f + f_actual s f = T f)) ->
  steps o g k s = Ok s' ->
  forall f, In f (faces g) -> T f <= f_rest s' f + f_actual s' f /\ (0 < f_rest s' f -> f_rest s' f + f_actual s' f = T f).
Proof.
  intros o g k. induction k as [|k IH]; intros s s' T P R H0 H f Hf; cbn [steps] in H.
  - injection H as <-. auto.
  - destruct (calc_ice_chunks g _ s) as [s1|] eqn:E1; [|discriminate]. cbn [rbind] in H.
    destruct (remesh_step o g s1) as [s2|] eqn:E2; [|discriminate]. cbn [rbind] in H.
    apply (IH s2 s' T P R); auto. intros x Hx. apply chunks_ok in E1; auto. destruct E1 as (c & -> & _).
    apply step_ok in E2; auto. destruct E2 as (v & SE). pose proof (se_vol _ _ _ _ _ SE x) as V.
    rewrite (se_rest _ _ _ _ _ SE), (se_actual _ _ _ _ _ SE) by auto.
    change (f_rest (w_chunk s c) x) with (f_rest s x). change (f_actual (w_chunk s c) x) with (f_actual s x).
    unfold rest_after. rewrite R. destruct (H0 x Hx) as (B1 & B2). destruct (Rltb _ 0) eqn:E.
    + apply Rltb_true in E. split; [lra|]. intros. lra.
    + apply Rltb_false in E. split; [lra|]. intros Q. assert (0 < f_rest s x) by lra. specialize (B2 H1). lra.
Qed.

Theorem remesh_balance : forall o g s s', plain_topo g -> rest_volume_redistr o = true ->
  (forall f, In f (faces g) -> 0 <= f_hi s f) -> remesh o g s = Ok s' ->
  forall f, In f (faces g) ->
    f_target s' f = area (get_triangle g s f) * f_hi s f /\ 0 <= f_rest s' f /\ 0 <= f_actual s' f /\
    f_target s' f <= f_rest s' f + f_actual s' f /\ (0 < f_rest s' f -> f_rest s' f + f_actual s' f = f_target s' f) /\
    f_hi s' f = 0.
Proof.
  intros o g s s' P R Hi H f Hf. unfold remesh in H.
  destruct (plan_ok g s P) as (t & r & a & E & V). rewrite E in H. cbn [rbind] in H. set (s1 := w_actual (w_rest (w_target s t) r) a) in *.
  destruct (calculate_nsteps o g s1) as [k|]; [|discriminate]. cbn [rbind] in H.
  destruct (if pseudo_2d_oz o then _ else _); [|discriminate]. cbn [rbind] in H.
  destruct (steps o g (Z.to_nat k) s1) as [s2|] eqn:E2; [|discriminate]. cbn [rbind] in H.
  destruct (loop_pure fd_hi (fun _ _ => 0) (fun _ _ _ _ => eq_refl) (faces g) s2 (proj1 P)) as (hi & E3 & V3 & _).
  rewrite E3 in H. injection H as H. rewrite <- H. cbn [f_target f_rest f_actual f_hi w_hi].
  destruct (steps_actual o g _ _ _ P E2) as (T & A & _). destruct (V f Hf) as (V1 & V2 & V4).
  assert (Tf : f_target s2 f = t f) by (rewrite T; reflexivity).
  assert (N0 : forall x, In x (faces g) -> 0 <= f_rest s1 x).
  { intros x Hx. unfold s1. cbn [f_rest w_actual w_rest]. destruct (V x Hx) as (X1 & X2 & _).
    rewrite X2, X1. apply Rmult_le_pos; [apply area_nonneg|auto]. }
  destruct (steps_balance o g (Z.to_nat k) s1 s2 t P R) with (f := f) as (B1 & B2); auto.
  { intros x Hx. unfold s1. cbn [f_rest f_actual w_actual w_rest]. destruct (V x Hx) as (_ & -> & ->). lra. }
  split; [rewrite Tf; auto|]. split; [apply (steps_rest_nonneg o g _ s1 s2 P R N0 E2 f Hf)|].
  split; [specialize (A f Hf); unfold s1 in A; cbn [f_actual w_actual] in A; lra|].
  rewrite Tf. split; auto.
Qed.

(** ** A sample surface: two triangles of a square *)

Definition square : topo :=
  Topo [0; 1; 2; 3]%nat [0; 1]%nat [0; 1; 2; 3; 4]%nat
    (fun n => match n with 0 | 2 => [0; 1]%nat | 1 => [0]%nat | _ => [1]%nat end)
    (fun f => match f with 0 => (0, 1, 2)%nat | _ => (0, 2, 3)%nat end)
    (fun e => match e with 0 | 1 => [0]%nat | 2 | 3 => [1]%nat | _ => [0; 1]%nat end).

(** The same height of ice [h] on both faces. *)
Definition square_ice (h : R) : st :=
  St (fun n => match n with 0 => V3 0 0 0 | 1 => V3 1 0 0 | 2 => V3 1 1 0 | _ => V3 0 1 0 end)%nat
     (fun _ => V3 0 0 0) (fun _ => 0) (fun _ => V3 0 0 0) (fun _ => h) (fun _ => 0) (fun _ => 0) (fun _ => 0)
     (fun _ => V3 0 0 0) (fun _ => 0) (fun _ => 0) (fun _ => 0) (fun _ => 0).

Lemma square_whole : whole square.
Proof.
  unfold whole, plain_topo. cbn. repeat split; try (repeat constructor; cbn; intuition lia); try discriminate.
  - intuition subst; try discriminate; injection H0 as <- <-; auto.
  - intuition subst; try discriminate; injection H0 as <- <-; auto.
  - intros n f H K. intuition subst; cbn in *; intuition.
  - intuition subst; injection H0 as <- <- <-; auto.
  - intuition subst; injection H0 as <- <- <-; auto.
  - intuition subst; injection H0 as <- <- <-; auto.
  - intuition subst; discriminate.
Qed.

Lemma square_flat : forall h, flat square (square_ice h) (V3 0 0 1).
Proof.
  intros h f Hf. cbn in Hf. destruct Hf as [<-|[<-|[]]].
  - unfold normal_orth, orth, vdivr, get_triangle. cbn. unfold cross, vsub. cbn.
    match goal with |- context [vmod ?v] => replace (vmod v) with 1 by (unfold vmod, mod2, dot; cbn; match goal with |- 1 = sqrt ?x => replace x with 1 by ring end; symmetry; apply sqrt_1) end.
    replace (Reqb 1 0) with false by (symmetry; apply Reqb_false; lra). f_equal. unfold vmul. apply vect_eq; cbn; field.
  - unfold normal_orth, orth, vdivr, get_triangle. cbn. unfold cross, vsub. cbn.
    match goal with |- context [vmod ?v] => replace (vmod v) with 1 by (unfold vmod, mod2, dot; cbn; match goal with |- 1 = sqrt ?x => replace x with 1 by ring end; symmetry; apply sqrt_1) end.
    replace (Reqb 1 0) with false by (symmetry; apply Reqb_false; lra). f_equal. unfold vmul. apply vect_eq; cbn; field.
Qed.

Lemma square_area : forall h f, In f (faces square) -> area (get_triangle square (square_ice h) f) = 1 / 2.
Proof.
  intros h f [<-|[<-|[]]]; unfold area, get_triangle; cbn; unfold cross, vsub, vmod, mod2, dot; cbn;
    (match goal with |- context [sqrt ?x] => replace x with 1 by ring end); rewrite sqrt_1; field.
Qed.

(** A triangle with area has no side of zero length. *)
Lemma side_pos : forall t, area t <> 0 -> 0 < min_side t.
Proof.
  intros [a b c r] H. unfold min_side. cbn.
  assert (S : forall u, vmod u <> 0 -> 0 < vmod u) by (intros u Hu; pose proof (vmod_nonneg u); lra).
  assert (Z : forall u, vmod u = 0 -> u = V3 0 0 0).
  { intros u Hu. unfold vmod in Hu. apply sqrt_eq_0 in Hu; [|apply mod2_nonneg]. unfold mod2, dot in Hu.
    apply vect_eq; cbn; nra. }
  unfold area in H. cbn in H.
  assert (K : forall u, vmod u = 0 -> (vsub b a = u \/ vsub c b = u) -> False).
  { intros u Hu [E|E]; rewrite (Z u Hu) in E; apply H; rewrite E; unfold cross, vmod, mod2, dot; cbn;
      (match goal with |- context [sqrt ?x] => replace x with 0 by ring end); rewrite sqrt_0; field. }
  apply Rmin_glb_lt; [apply Rmin_glb_lt|]; apply S; intros E; apply Z in E; apply H; unfold area, cross, vmod, mod2, dot, vsub in *; cbn in *;
    injection E as E1 E2 E3;
    (match goal with |- context [sqrt ?x] => replace x with 0; [rewrite sqrt_0; field|] end).
  - replace (vx b) with (vx a) by lra. replace (vy b) with (vy a) by lra. replace (vz b) with (vz a) by lra. ring.
  - replace (vx c) with (vx b) by lra. replace (vy c) with (vy b) by lra. replace (vz c) with (vz b) by lra. ring.
  - replace (vx c) with (vx a) by lra. replace (vy c) with (vy a) by lra. replace (vz c) with (vz a) by lra. ring.
Qed.

(** The number of steps on a small grid is always the greatest allowed. *)
Theorem nsteps_small : forall o g s n, 0 <= nsteps_ignore_part o -> INR (length (faces g)) * nsteps_ignore_part o < 1 ->
  calculate_nsteps o g s = Ok n -> n = nsteps_max o.
Proof.
  intros o g s n I L H. unfold calculate_nsteps in H. destruct (Z.ltb_spec (nsteps_max o) (nsteps_min o)); [discriminate|].
  destruct (rmap _ _) as [l|] eqn:El; [|discriminate]. cbn [rbind] in H. cbv zeta in H.
  assert (Ln : length (rev (zsort l)) = length (faces g)).
  { rewrite rev_length, (Permutation.Permutation_length (zsort_perm l)). clear -El. revert l El.
    induction (faces g) as [|f fs IH]; intros l E; cbn in E; [injection E as <-; auto|].
    destruct (local_nsteps o g s f); [|discriminate]. cbn [rbind] in E. destruct (rmap _ fs); [|discriminate]. cbn [rbind] in E.
    injection E as <-. cbn. auto. }
  rewrite Ln in H. assert (T : trunc (INR (length (faces g)) * nsteps_ignore_part o) = 0%Z).
  { set (x := INR (length (faces g)) * nsteps_ignore_part o) in *.
    assert (X : 0 <= x) by (apply Rmult_le_pos; auto; apply pos_INR). destruct (trunc_nonneg x X) as (Q & E).
    pose proof (proj2 (Int_part_iff x 1) L). rewrite E in *. lia. }
  rewrite T in H. destruct (py_get _ _) as [x|]; [|discriminate]. cbn [rbind] in H. cbn [firstn Z.to_nat first_fit] in H.
  destruct (Z.ltb (nsteps_max o) x); (destruct (Z.ltb_spec (nsteps_max o) (nsteps_min o)); [lia|]); congruence.
Qed.

(** Without ice on a square one step is enough, but ten are made. *)
Lemma square_ten : calculate_nsteps default_options square (square_ice 0) = Ok 10%Z.
Proof.
  assert (X : exists n, calculate_nsteps default_options square (square_ice 0) = Ok n).
  { apply nsteps_found; [cbn; lia|discriminate| |cbn; lra|cbn; lra].
    intros f Hf. apply side_pos. rewrite square_area by auto. lra. }
  destruct X as (n & H). rewrite H. f_equal. apply nsteps_small in H; [exact H|cbn; lra|cbn; lra].
Qed.

Lemma square_one : forall f, In f (faces square) -> ~ too_fast default_options square (square_ice 0) 1 f.
Proof.
  intros f Hf H. unfold too_fast in H. cbn [nsteps_hi_side_fact default_options f_hi square_ice] in H.
  assert (S : 0 < min_side (get_triangle square (square_ice 0) f)) by (apply side_pos; rewrite square_area by auto; lra).
  lra.
Qed.

(** Two steps without redistribution. *)
Definition two_steps (r : bool) : options := Opt 2 2 (1 / 10) (5 / 100) 1 10 (15 / 100) 1 (2 / 10) (1 / 10) r 0 false.

Lemma two_found : forall r h, calculate_nsteps (two_steps r) square (square_ice h) = Ok 2%Z.
Proof.
  intros r h. assert (X : exists n, calculate_nsteps (two_steps r) square (square_ice h) = Ok n).
  { apply nsteps_found; [cbn; lia|discriminate| |cbn; lra|cbn; lra].
    intros f Hf. apply side_pos. rewrite square_area by auto. lra. }
  destruct X as (n & H). rewrite H. f_equal. apply nsteps_bounds in H. cbn in H. lia.
Qed.

Theorem square_run : forall r h, 0 <= h -> exists s', remesh (two_steps r) square (square_ice h) = Ok s' /\
  (forall f, In f (faces square) -> f_target s' f = h / 2 /\ f_actual s' f = (if r then h / 2 else 3 / 4 * h)) /\
  n_pos s' 2%nat = V3 1 1 (if r then h else 3 / 2 * h).
Proof.
  intros r h Hh.
  destruct (flat_remesh (two_steps r) square (square_ice h) (V3 0 0 1) h 2 square_whole (square_flat h)
    ltac:(cbn; lia) eq_refl ltac:(cbn; lra) ltac:(cbn; lra) Hh (fun _ _ => eq_refl) (two_found r h) ltac:(lia)) as (s' & E & P & I).
  exists s'. split; auto. cbn [rest_volume_redistr two_steps] in P, I. change (Z.to_nat 2) with 2%nat in P, I.
  assert (HH : harmonic 2 = 3 / 2) by (cbn; field). rewrite HH in P, I. split.
  - intros f Hf. destruct (I f Hf) as (I1 & I2 & _). rewrite I1, I2, square_area by auto. split; [field|]. destruct r; field.
  - rewrite P by (cbn; auto). destruct r; unfold vadd, vmul; apply vect_eq; cbn; ring.
Qed.

(** ** Smoothing of heights on a flat surface always ends *)

Lemma flat_face_shift_any : forall g s n f, whole g -> flat g s n -> dirs g s n -> In f (faces g) ->
  face_shift g s f = Ok (f_chunk s f / area (get_triangle g s f)).
Proof.
  intros g s n f W F (D1 & D2) Hf. pose proof (flat_area g s n f F Hf) as A. pose proof (flat_unit g s n f F Hf) as (U1 & U2).
  unfold face_shift. rewrite rdiv_runs by lra. cbn [rbind].
  destruct (Rltb eps10 _); auto. destruct (f_nodes g f) as [[a b] c] eqn:En. rewrite (F f Hf). cbn [rbind].
  assert (C : forall k, In k [a; b; c] -> n_dir s k = n).
  { intros k Hk. apply D2. apply (corners_in g f k W Hf). unfold corners. rewrite En. auto. }
  rewrite (C a), (C b), (C c) by (cbn; tauto). destruct (equal_coefs (n_pos s a) (n_pos s b) (n_pos s c) n U2) as (q & ->). cbn [rbind fst snd].
  unfold quadratic_shift. rewrite Rabs_R0. replace (Rltb eps10 0) with false; auto. symmetry. apply Rltb_false. pose proof eps10_pos. lra.
Qed.

Lemma flat_define_any : forall g s n, whole g -> flat g s n -> dirs g s n -> (forall f, In f (faces g) -> 0 <= f_chunk s f) ->
  exists s', define_ice_shifts g s = Ok s'.
Proof.
  intros g s n W F D C. pose proof W as W'. destruct W as (P & Ne & _ & Co & Nf). unfold define_ice_shifts.
  assert (own1 : forall s v k, v k = f_height s k -> face_shift g (w_height s v) k = face_shift g s k) by (intros [] v k _; reflexivity).
  assert (own2 : forall s v k, v k = n_height s k -> node_shift g (w_nheight s v) k = node_shift g s k) by (intros [] v k _; reflexivity).
  destruct (loop_runs fd_height _ own1 (faces g) s (proj1 P)) as (s1 & E1); [intros f Hf; eexists; eapply flat_face_shift_any; eauto|].
  destruct (loop_ok fd_height _ own1 _ _ _ (proj1 P) E1) as (hf & -> & V1 & _). rewrite E1. cbn [rbind].
  apply (loop_runs fd_nheight _ own2 (nodes g) (w_height s hf) (proj1 (proj2 P))). intros k Hk. unfold node_shift.
  change (f_height (w_height s hf)) with hf.
  assert (Q : forall f, In f (n_faces g k) -> 0 <= hf f).
  { intros f Hx. assert (Hf : In f (faces g)) by (destruct P as (_ & _ & _ & Q); eapply Q; eauto).
    specialize (V1 f Hf). apply face_shift_ok in V1; auto. tauto. }
  specialize (Nf k Hk). destruct (n_faces g k) as [|f0 fr] eqn:El; [contradiction|]. rewrite <- El in *. cbv zeta.
  rewrite rsum_total. pose proof (total_nonneg _ hf (n_faces g k) Q) as T.
  assert (L : 0 < INR (length (n_faces g k))) by (rewrite El; apply length_pos).
  replace (Rltb (total hf (n_faces g k) / INR (length (n_faces g k))) 0) with false; eauto. symmetry. apply Rltb_false.
  assert (0 <= total hf (n_faces g k) / INR (length (n_faces g k))); [|lra].
  apply Rmult_le_pos; auto. apply Rlt_le, Rinv_0_lt_compat. auto.
Qed.

Theorem flat_iteration_runs : forall o g s n, whole g -> three_edges g -> flat g s n -> dirs g s n -> 0 <= hsmooth_alfa o ->
  0 <= hsmooth_beta o <= 1 / 3 -> ice_ok g s -> exists s', smoothing_iteration o g s = Ok s'.
Proof.
  intros o g s n W T F D A B I. pose proof W as (P & Ne & _). destruct (iteration_pre o g s P Ne) as (mx & lv & cv & Em & R & C).
  rewrite R. apply (flat_define_any g _ n W); auto. intros f Hf. cbn [f_chunk w_chunk]. rewrite C by auto.
  apply after_nonneg; auto. eapply mx_nonneg; eauto.
Qed.

Lemma square_three : three_edges square.
Proof. intros f [<-|[<-|[]]]; cbn; lia. Qed.

(** The square with directions set and more ice on the first face. *)
Definition square_uneven : st :=
  St (n_pos (square_ice 0)) (fun _ => V3 0 0 1) (fun _ => 0) (fun _ => V3 0 0 0) (fun _ => 0) (fun _ => 0) (fun _ => 0) (fun _ => 0)
     (fun _ => V3 0 0 1) (fun f => match f with O => 1 | _ => 0 end) (fun _ => 0) (fun f => match f with O => 2 | _ => 0 end) (fun _ => 0).

Lemma square_uneven_ice : ice_ok square square_uneven.
Proof. intros f [<-|[<-|[]]]; cbn; lra. Qed.

Lemma square_uneven_run : exists s', smoothing_iteration (two_steps true) square square_uneven = Ok s'.
Proof.
  apply (flat_iteration_runs _ _ _ (V3 0 0 1)); auto using square_whole, square_three, square_uneven_ice.
  - exact (square_flat 0).
  - split; intros k Hk; reflexivity.
  - cbn; lra.
  - cbn; lra.
Qed.

Lemma square_uneven_smoothed : exists s', heights_smoothing (two_steps true) square square_uneven = Ok s'.
Proof.
  destruct square_uneven_run as (s' & E). exists s'. unfold heights_smoothing. cbn [hsmooth_steps two_steps].
  change (Z.to_nat 1) with 1%nat. cbn [repeated]. rewrite E. reflexivity.
Qed.

(** Heights that were found for the ice stay too. *)
Lemma face_shift_same : forall g s s' f, n_pos s' = n_pos s -> n_dir s' = n_dir s -> f_chunk s' f = f_chunk s f ->
  face_shift g s' f = face_shift g s f.
Proof. intros g s s' f P D C. unfold face_shift, get_triangle. rewrite P, D, C. reflexivity. Qed.

Theorem iteration_equal_all : forall o g s s', plain_topo g -> 0 <= hsmooth_alfa o -> 0 <= hsmooth_beta o -> ice_ok g s ->
  (forall f1 f2, In f1 (faces g) -> In f2 (faces g) -> f_height s f1 = f_height s f2) ->
  smoothing_iteration o g s = Ok s' -> forall f, In f (faces g) -> f_chunk s' f = f_chunk s f /\
  (face_shift g s f = Ok (f_height s f) -> f_height s' f = f_height s f).
Proof.
  intros o g s s' P A B I Eq H f Hf. pose proof (iteration_equal o g s s' P A B I Eq H f Hf) as C. split; auto. intros K.
  apply iteration_ok in H; auto. destruct H as (mx & hf & _ & SR & E & _ & _ & Hs & _). unfold same_rest in SR.
  specialize (Hs f Hf). rewrite (face_shift_same g s s' f) in Hs by tauto. rewrite K in Hs. rewrite E. congruence.
Qed.
