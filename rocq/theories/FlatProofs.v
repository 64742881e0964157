(** Proofs about even ice on a flat surface. *)

From Coq Require Import ZArith Reals Bool Lra Lia List.
From Verif Require Import Py Geom GeomSpec GeomProofs CloudProofs GeomMore Remesh RemeshSpec RemeshProofs DirProofs SmoothProofs StepsProofs GrowthProofs.
Import ListNotations.
Open Scope R_scope.

Lemma flat_unit : forall g s n f, flat g s n -> In f (faces g) -> vmod n = 1 /\ dot n n = 1.
Proof.
  intros g s n f F Hf. specialize (F f Hf). unfold normal_orth in F. apply orth_ok in F. destruct F as (_ & _ & E).
  split; auto. rewrite dot_self, E. lra.
Qed.

Lemma flat_area : forall g s n f, flat g s n -> In f (faces g) -> 0 < area (get_triangle g s f).
Proof.
  intros g s n f F Hf. specialize (F f Hf). unfold normal_orth in F. apply orth_ok in F. destruct F as (E & _).
  unfold area. pose proof (vmod_nonneg (cross (vsub (tb (get_triangle g s f)) (ta (get_triangle g s f))) (vsub (tc (get_triangle g s f)) (tb (get_triangle g s f))))). lra.
Qed.

Lemma copies : forall (d : nat -> vect) n fs, (forall f, In f fs -> d f = n) ->
  fold_left vadd (map d fs) (V3 0 0 0) = vmul n (INR (length fs)).
Proof.
  intros d n fs H. rewrite fold_vadd.
  assert (T : forall (c : vect -> R), total c (map d fs) = c n * INR (length fs)).
  { intros c. rewrite total_map. induction fs as [|f fs IH]; [cbn; ring|].
    change (length (f :: fs)) with (S (length fs)). rewrite S_INR. cbn [total].
    rewrite IH by (intros; apply H; right; auto). rewrite (H f (or_introl eq_refl)). ring. }
  rewrite !T. unfold vmul. apply vect_eq; cbn; ring.
Qed.

Lemma orth_copies : forall n k, vmod n = 1 -> 0 < k -> orth (vmul n k) = Ok n.
Proof.
  intros n k H K. unfold orth, vdivr. rewrite vmod_vmul by lra. rewrite H.
  replace (Reqb (1 * k) 0) with false by (symmetry; apply Reqb_false; lra). f_equal. unfold vmul. apply vect_eq; cbn; field; lra.
Qed.

(** All directions are [n]. *)
Definition dirs (g : topo) (s : st) (n : vect) : Prop :=
  (forall f, In f (faces g) -> f_dir s f = n) /\ (forall k, In k (nodes g) -> n_dir s k = n).

Lemma flat_init : forall g s n, whole g -> flat g s n -> exists df dn,
  init_ice_dirs g s = Ok (w_ndir (w_fdir s df) dn) /\ dirs g (w_ndir (w_fdir s df) dn) n.
Proof.
  intros g s n (P & Ne & _ & Co & Nf) F. destruct (faces g) as [|f0 fr] eqn:Ef; [contradiction|].
  assert (U : vmod n = 1 /\ dot n n = 1) by (apply (flat_unit g s n f0 F); rewrite Ef; left; auto). rewrite <- Ef in *. clear f0 fr Ef.
  assert (R : exists s', init_ice_dirs g s = Ok s').
  { unfold init_ice_dirs.
    assert (own1 : forall s v k, v k = f_dir s k ->
      (fun s f => normal_orth (get_triangle g s f)) (w_fdir s v) k = (fun s f => normal_orth (get_triangle g s f)) s k)
      by (intros [] v k _; reflexivity).
    destruct (loop_runs fd_fdir _ own1 (faces g) s (proj1 P)) as (s1 & E1); [intros f Hf; exists n; apply F; auto|].
    destruct (loop_ok fd_fdir _ own1 _ _ _ (proj1 P) E1) as (df & -> & V1 & _). cbn beta in V1. cbn beta in E1.
    rewrite E1. cbn [rbind].
    assert (own2 : forall s v k, v k = n_dir s k ->
      (fun s n => orth (fold_left vadd (map (f_dir s) (n_faces g n)) (V3 0 0 0))) (w_ndir s v) k =
      (fun s n => orth (fold_left vadd (map (f_dir s) (n_faces g n)) (V3 0 0 0))) s k) by (intros [] v k _; reflexivity).
    apply (loop_runs fd_ndir _ own2 (nodes g) _ (proj1 (proj2 P))). intros k Hk. exists n. cbn beta.
    rewrite (copies _ n).
    - apply orth_copies; [tauto|]. specialize (Nf k Hk). destruct (n_faces g k); [contradiction|]. apply length_pos.
    - intros f Hf. assert (Hf' : In f (faces g)) by (destruct P as (_ & _ & _ & Q); eapply Q; eauto).
      cbn. specialize (V1 f Hf'). rewrite (F f Hf') in V1. congruence. }
  destruct R as (s' & R). pose proof R as R'. apply init_ice_dirs_ok in R'; auto. destruct R' as (df & dn & -> & V & W).
  exists df, dn. split; auto.
  assert (D : forall f, In f (faces g) -> df f = n) by (intros f Hf; specialize (V f Hf); rewrite (F f Hf) in V; congruence).
  split; [exact D|]. intros k Hk. specialize (W k Hk). rewrite (copies _ n) in W.
  - rewrite orth_copies in W; [injection W as W; symmetry; exact W|tauto|]. specialize (Nf k Hk). destruct (n_faces g k); [contradiction|]. apply length_pos.
  - intros f Hf. apply D. destruct P as (_ & _ & _ & Q). eapply Q; eauto.
Qed.

Lemma rmap_runs_areas : forall g s fs, (forall f, In f fs -> 0 < area (get_triangle g s f)) ->
  exists ws, rmap (fun f => rdiv 1 (area (get_triangle g s f))) fs = Ok ws.
Proof.
  induction fs as [|f fs IH]; intros H; cbn; [eauto|]. rewrite rdiv_runs by (pose proof (H f (or_introl eq_refl)); lra).
  cbn [rbind]. destruct IH as (ws & ->); [intros; apply H; right; auto|]. cbn [rbind]. eauto.
Qed.

Lemma corners_in : forall g f k, whole g -> In f (faces g) -> In k (corners g f) -> In k (nodes g).
Proof.
  intros g f k (_ & _ & _ & Co & _) Hf Hk. unfold corners in Hk. destruct (f_nodes g f) as [[a b] c] eqn:E.
  destruct (Co f a b c Hf E) as (A & B & C). destruct Hk as [<-|[<-|[<-|[]]]]; auto.
Qed.

Lemma flat_smooth_dirs : forall o g s n, whole g -> flat g s n -> 0 < nsmooth_k o -> dirs g s n ->
  exists df dn, smooth_dirs o g s = Ok (w_ndir (w_fdir s df) dn) /\ dirs g (w_ndir (w_fdir s df) dn) n.
Proof.
  intros o g s n W F K (D1 & D2). pose proof W as W'. destruct W as (P & Ne & _ & Co & Nf).
  assert (FD : forall f, In f (faces g) -> face_dir o g s f = Ok n).
  { intros f Hf. unfold face_dir. cbv zeta. apply wsum_equal.
    - rewrite !map_length. auto.
    - intros x Hx. apply in_map_iff in Hx. destruct Hx as (k & <- & _).
      pose proof (Rmax_r (nsmooth_s o * (1 - dot (f_dir s f) (n_dir s k))) (nsmooth_k o)). lra.
    - unfold corners. destruct (f_nodes g f) as [[a b] c]. discriminate.
    - intros x Hx. apply in_map_iff in Hx. destruct Hx as (k & <- & Hk). apply D2. eapply corners_in; eauto. }
  assert (own1 : forall s v k, v k = f_dir s k -> face_dir o g (w_fdir s v) k = face_dir o g s k).
  { intros [] v k Hv. unfold face_dir. cbn in *. rewrite Hv. reflexivity. }
  assert (own2 : forall s v k, v k = n_dir s k -> node_dir g (w_ndir s v) k = node_dir g s k) by (intros [] v k _; reflexivity).
  destruct (loop_runs fd_fdir _ own1 (faces g) s (proj1 P)) as (s1 & E1); [intros f Hf; exists n; auto|].
  destruct (loop_ok fd_fdir _ own1 _ _ _ (proj1 P) E1) as (df & -> & V1 & _).
  assert (Df : forall f, In f (faces g) -> df f = n) by (intros f Hf; specialize (V1 f Hf); rewrite (FD f Hf) in V1; congruence).
  assert (ND : forall k, In k (nodes g) -> node_dir g (w_fdir s df) k = Ok n).
  { intros k Hk. unfold node_dir.
    assert (Q : forall f, In f (n_faces g k) -> In f (faces g)) by (intros f Hf; destruct P as (_ & _ & _ & Q); eapply Q; eauto).
    destruct (rmap_runs_areas g (w_fdir s df) (n_faces g k)) as (ws & Ew).
    { intros f Hf. change (get_triangle g (w_fdir s df) f) with (get_triangle g s f). eapply flat_area; eauto. }
    rewrite Ew. cbn [rbind]. apply rmap_areas in Ew. destruct Ew as (L & Pw). apply wsum_equal.
    - rewrite map_length. auto.
    - auto.
    - specialize (Nf k Hk). destruct (n_faces g k); [contradiction|discriminate].
    - intros x Hx. apply in_map_iff in Hx. destruct Hx as (f & <- & Hf). apply Df. auto. }
  destruct (loop_runs fd_ndir _ own2 (nodes g) (w_fdir s df) (proj1 (proj2 P))) as (s2 & E2); [intros k Hk; exists n; auto|].
  destruct (loop_ok fd_ndir _ own2 _ _ _ (proj1 (proj2 P)) E2) as (dn & -> & V2 & _).
  exists df, dn. split.
  - unfold smooth_dirs. rewrite E1. cbn [rbind]. exact E2.
  - split; [exact Df|]. intros k Hk. specialize (V2 k Hk). rewrite (ND k Hk) in V2. cbn. congruence.
Qed.

Lemma flat_normals : forall o g s n, whole g -> flat g s n -> 0 < nsmooth_k o -> dirs g s n ->
  exists df dn, normals_smoothing o g s = Ok (w_ndir (w_fdir s df) dn) /\ dirs g (w_ndir (w_fdir s df) dn) n.
Proof.
  intros o g s n W F K D. rewrite normals_smoothing_eq. generalize (Z.to_nat (nsmooth_steps o)). intros m. revert s F D.
  induction m as [|m IH]; intros s F D; cbn [repeated].
  - exists (f_dir s), (n_dir s). split; [destruct s; reflexivity|]. destruct s. exact D.
  - destruct (flat_smooth_dirs o g s n W F K D) as (df & dn & E & D'). rewrite E. cbn [rbind].
    destruct (IH (w_ndir (w_fdir s df) dn) F D') as (df2 & dn2 & E2 & D2). exists df2, dn2. split.
    + rewrite E2. destruct s; reflexivity.
    + destruct s. exact D2.
Qed.

Lemma equal_coefs : forall v1 v2 v3 n, dot n n = 1 -> exists a, prizmatoid_volume_coefs v1 v2 v3 n n n n = Ok (a, 0).
Proof.
  intros v1 v2 v3 n H. unfold prizmatoid_volume_coefs, vdivr. rewrite H.
  replace (Reqb 1 0) with false by (symmetry; apply Reqb_false; lra). cbn [rbind]. eexists. f_equal. f_equal.
  unfold dot, cross, vadd, vsub. cbn. ring.
Qed.

(** The state has even ice of the height [h]. *)
Definition even (g : topo) (s : st) (h : R) : Prop := forall f, In f (faces g) -> f_chunk s f = area (get_triangle g s f) * h.

Lemma flat_face_shift : forall g s n h f, whole g -> flat g s n -> dirs g s n -> even g s h -> In f (faces g) -> face_shift g s f = Ok h.
Proof.
  intros g s n h f W F (D1 & D2) E Hf. pose proof (flat_area g s n f F Hf) as A. pose proof (flat_unit g s n f F Hf) as (U1 & U2).
  unfold face_shift. rewrite rdiv_runs by lra. cbn [rbind]. rewrite (E f Hf).
  replace (area (get_triangle g s f) * h / area (get_triangle g s f)) with h by (field; lra).
  destruct (Rltb eps10 _); auto. destruct (f_nodes g f) as [[a b] c] eqn:En. rewrite (F f Hf). cbn [rbind].
  assert (C : forall k, In k [a; b; c] -> n_dir s k = n).
  { intros k Hk. apply D2. apply (corners_in g f k W Hf). unfold corners. rewrite En. auto. }
  rewrite (C a), (C b), (C c) by (cbn; tauto). destruct (equal_coefs (n_pos s a) (n_pos s b) (n_pos s c) n U2) as (q & ->). cbn [rbind fst snd].
  unfold quadratic_shift. rewrite Rabs_R0. replace (Rltb eps10 0) with false; auto. symmetry. apply Rltb_false. pose proof eps10_pos. lra.
Qed.

Lemma flat_define : forall g s n h, whole g -> flat g s n -> dirs g s n -> 0 <= h -> even g s h -> exists hf hn,
  define_ice_shifts g s = Ok (w_nheight (w_height s hf) hn) /\
  (forall f, In f (faces g) -> hf f = h) /\ (forall k, In k (nodes g) -> hn k = h).
Proof.
  intros g s n h W F D Hh E. pose proof W as W'. destruct W as (P & Ne & _ & Co & Nf). unfold define_ice_shifts.
  assert (own1 : forall s v k, v k = f_height s k -> face_shift g (w_height s v) k = face_shift g s k) by (intros [] v k _; reflexivity).
  assert (own2 : forall s v k, v k = n_height s k -> node_shift g (w_nheight s v) k = node_shift g s k) by (intros [] v k _; reflexivity).
  destruct (loop_runs fd_height _ own1 (faces g) s (proj1 P)) as (s1 & E1); [intros f Hf; exists h; eapply flat_face_shift; eauto|].
  destruct (loop_ok fd_height _ own1 _ _ _ (proj1 P) E1) as (hf & -> & V1 & _). rewrite E1. cbn [rbind].
  assert (Hf : forall f, In f (faces g) -> hf f = h).
  { intros f Hf. specialize (V1 f Hf). rewrite (flat_face_shift g s n h f W' F D E Hf) in V1. congruence. }
  assert (ND : forall k, In k (nodes g) -> node_shift g (w_height s hf) k = Ok h).
  { intros k Hk. unfold node_shift. change (f_height (w_height s hf)) with hf.
    assert (Q : forall f, In f (n_faces g k) -> hf f = h) by (intros f Hx; apply Hf; destruct P as (_ & _ & _ & Q); eapply Q; eauto).
    specialize (Nf k Hk). destruct (n_faces g k) as [|f0 fr] eqn:El; [contradiction|]. rewrite <- El in *. cbv zeta.
    rewrite rsum_total, (total_ext _ hf (fun _ => h)) by auto.
    assert (T : total (fun _ : nat => h) (n_faces g k) = h * INR (length (n_faces g k))).
    { generalize (n_faces g k). induction l as [|x l IH]; [cbn; ring|]. change (length (x :: l)) with (S (length l)).
      rewrite S_INR. cbn [total]. rewrite IH. ring. }
    rewrite T. assert (L : 0 < INR (length (n_faces g k))) by (rewrite El; apply length_pos).
    replace (h * INR (length (n_faces g k)) / INR (length (n_faces g k))) with h by (field; lra).
    replace (Rltb h 0) with false; auto. symmetry. apply Rltb_false. lra. }
  destruct (loop_runs fd_nheight _ own2 (nodes g) (w_height s hf) (proj1 (proj2 P))) as (s2 & E2); [intros k Hk; exists h; auto|].
  destruct (loop_ok fd_nheight _ own2 _ _ _ (proj1 (proj2 P)) E2) as (hn & -> & V2 & _).
  exists hf, hn. split; [exact E2|]. split; auto. intros k Hk. specialize (V2 k Hk). rewrite (ND k Hk) in V2. congruence.
Qed.

Lemma iteration_pre : forall o g s, plain_topo g -> faces g <> [] -> exists mx lv cv,
  py_max (map (f_height s) (faces g)) = Ok mx /\
  smoothing_iteration o g s = define_ice_shifts g (w_chunk (w_loc s lv) cv) /\
  (forall f, In f (faces g) -> cv f = f_chunk s f - given (f_height s) g (amount o g s mx) f (edges g)
                                      + taken (f_height s) g (amount o g s mx) f (edges g)).
Proof.
  intros o g s P Ne. pose proof (proj1 P) as N. unfold smoothing_iteration.
  destruct (loop_pure fd_loc (fun s f => f_chunk s f) (fun s v k _ => ltac:(destruct s; reflexivity)) (faces g) s N)
    as (v0 & E0 & V0 & _). rewrite E0. cbn [rbind].
  change (f_height (w_loc s v0)) with (f_height s).
  destruct (py_max_ok (map (f_height s) (faces g))) as (mx & Em & _); [destruct (faces g); [contradiction|discriminate]|].
  rewrite Em. cbn [rbind]. rewrite exchange_run. cbn [rbind]. set (v1 := fold_left _ _ v0).
  destruct (loop_pure fd_chunk (fun s f => f_loc s f) (fun s v k _ => ltac:(destruct s; reflexivity)) (faces g) (w_loc s v1) N)
    as (c & E1 & V1 & _). rewrite E1. cbn [rbind]. exists mx, v1, c. split; auto. split; auto.
  intros f Hf'. rewrite V1 by auto. cbn. unfold v1. rewrite moved_all_at, V0 by auto. auto.
Qed.

Lemma total_zero : forall A (f : A -> R) l, (forall x, In x l -> f x = 0) -> total f l = 0.
Proof. induction l as [|x l IH]; intros H; cbn; auto. rewrite (H x (or_introl eq_refl)), IH; [ring|]. intros; apply H; right; auto. Qed.

Lemma flat_heights : forall o g s n h, whole g -> flat g s n -> dirs g s n -> 0 <= h -> 0 <= hsmooth_alfa o -> even g s h ->
  (forall f, In f (faces g) -> f_height s f = h) -> (forall k, In k (nodes g) -> n_height s k = h) ->
  exists s', heights_smoothing o g s = Ok s' /\ same_rest s s' /\ (forall k, In k (nodes g) -> n_height s' k = h).
Proof.
  intros o g s n h W F D Hh Al. unfold heights_smoothing. generalize (Z.to_nat (hsmooth_steps o)). intros m. revert s F D.
  induction m as [|m IH]; intros s F D E Hf Hn; cbn [repeated].
  - exists s. split; auto. split; auto. apply same_rest_refl.
  - pose proof W as (P & Ne & _).
    destruct (iteration_pre o g s P Ne) as (mx & lv & cv & Em & R & C). rewrite R.
    assert (M : 0 <= mx).
    { destruct (faces g) as [|f0 fr] eqn:Ef; [contradiction|].
      destruct (py_max_ok (map (f_height s) (f0 :: fr)) ltac:(discriminate)) as (m' & Em' & Hm & _). rewrite Em in Em'. injection Em' as <-.
      specialize (Hm (f_height s f0) (or_introl eq_refl)). rewrite (Hf f0 (or_introl eq_refl)) in Hm. lra. }
    assert (Q : forall e, In e (edges g) -> amount o g s mx e = 0).
    { intros e He. unfold amount. destruct (sides (f_height s) g e) as [[u l]|] eqn:Es; auto.
      destruct (sides_in _ _ _ _ _ P He Es) as (Hu & Hl). rewrite (Hf u Hu), (Hf l Hl).
      replace (h - h) with 0 by ring. rewrite Rmin_left by (apply Rmult_le_pos; auto). ring. }
    set (s1 := w_chunk (w_loc s lv) cv).
    assert (E1 : even g s1 h).
    { intros f Hf'. unfold s1. cbn [f_chunk w_chunk]. rewrite C by auto. change (get_triangle g (w_chunk (w_loc s lv) cv) f) with (get_triangle g s f).
      rewrite <- (E f Hf'). unfold given, taken. rewrite !total_zero; [ring| |].
      - intros e He. destruct (sides _ _ e) as [[u l]|]; auto. destruct (Nat.eq_dec l f); auto.
      - intros e He. destruct (sides _ _ e) as [[u l]|]; auto. destruct (Nat.eq_dec u f); auto. }
    destruct (flat_define g s1 n h W F D Hh E1) as (hf & hn & R1 & Hf1 & Hn1). rewrite R1. cbn [rbind].
    destruct (IH (w_nheight (w_height s1 hf) hn)) as (s' & R2 & S2 & N2); auto.
    exists s'. split; auto.
Qed.

Lemma tail_runs : forall o g s, whole g -> (nss_steps o <= 0)%Z -> (forall f, In f (faces g) -> area (get_triangle g s f) <> 0) ->
  exists s', (do s <- remember_current_areas g s; do s <- null_space_smoothing o g s; correction_by_area g s) = Ok s'.
Proof.
  intros o g s W Z0 A. destruct W as (P & Ne & Ee & Co & Nf). unfold remember_current_areas.
  assert (own1 : forall s v k, v k = f_saved s k -> area (get_triangle g (w_saved s v) k) = area (get_triangle g s k)) by (intros [] v k _; reflexivity).
  destruct (loop_pure fd_saved (fun s f => area (get_triangle g s f)) own1 (faces g) s (proj1 P)) as (sv & R1 & S1 & S2).
  rewrite R1. cbn [rbind].
  assert (N : null_space_smoothing o g (w_saved s sv) = Ok (w_saved s sv)).
  { unfold null_space_smoothing. destruct (faces g) as [|f0 fr] eqn:Ef; [contradiction|].
    destruct (f_nodes g f0) as [[a b] c] eqn:En. destruct (Co f0 a b c (or_introl eq_refl) En) as (Ha & _).
    destruct (nodes g); [contradiction|]. destruct (edges g); [contradiction|].
    destruct (Z.ltb_spec 0 (nss_steps o)); [lia|auto]. }
  rewrite N. cbn [rbind]. unfold correction_by_area.
  set (E := fun (s : st) (f : nat) => if Reqb (f_saved s f) 0 then Raise EAssertionError
            else Ok (f_rest s f * area (get_triangle g s f) / f_saved s f)).
  assert (own2 : forall s v k, v k = f_rest s k -> E (w_rest s v) k = E s k).
  { intros [] v k Hv. unfold E. cbn in *. rewrite Hv. reflexivity. }
  rewrite (loop_ext _ _ _ (fun f s => do v <- E s f; Ok (w_rest s (put (f_rest s) f v)))).
  2: { intros f s0. unfold E. destruct (Reqb _ _); reflexivity. }
  apply (loop_runs fd_rest E own2 _ _ (proj1 P)). intros f Hf. unfold E. cbn [f_saved w_saved]. rewrite S1 by auto.
  replace (Reqb (area (get_triangle g s f)) 0) with false by (symmetry; apply Reqb_false; auto). eauto.
Qed.

Lemma sub_shift : forall a b v, vsub (vadd a v) (vadd b v) = vsub a b.
Proof. intros. unfold vsub, vadd. apply vect_eq; cbn; ring. Qed.

Lemma shifted_triangle : forall g s s' v f, whole g -> In f (faces g) ->
  (forall k, In k (nodes g) -> n_pos s' k = vadd (n_pos s k) v) ->
  area (get_triangle g s' f) = area (get_triangle g s f) /\ normal_orth (get_triangle g s' f) = normal_orth (get_triangle g s f).
Proof.
  intros g s s' v f (_ & _ & _ & Co & _) Hf H. unfold get_triangle. destruct (f_nodes g f) as [[a b] c] eqn:E.
  destruct (Co f a b c Hf E) as (A & B & C). rewrite !H by auto. unfold area, normal_orth. cbn. rewrite !sub_shift. auto.
Qed.

(** One step on a flat surface with even ice. *)
Theorem flat_step : forall o g s n h, whole g -> flat g s n -> (nss_steps o <= 0)%Z -> 0 < nsmooth_k o -> 0 <= hsmooth_alfa o ->
  0 <= h -> even g s h -> exists s', remesh_step o g s = Ok s' /\
  (forall k, In k (nodes g) -> n_pos s' k = vadd (n_pos s k) (vmul n h)) /\
  (forall f, In f (faces g) -> f_rest s' f = rest_after o (f_rest s f) (area (get_triangle g s f) * h) /\
                               f_actual s' f = f_actual s f + area (get_triangle g s f) * h) /\
  f_hi s' = f_hi s /\ f_target s' = f_target s.
Proof.
  intros o g s n h W F Zn K Al Hh E. pose proof W as (P & Ne & Ee & Co & Nf).
  destruct (flat_init g s n W F) as (df & dn & E1 & D1). unfold remesh_step. rewrite E1. cbn [rbind].
  set (s1 := w_ndir (w_fdir s df) dn) in *.
  assert (F1 : flat g s1 n) by exact F.
  destruct (flat_normals o g s1 n W F1 K D1) as (df2 & dn2 & E2 & D2). rewrite E2. cbn [rbind].
  set (s2 := w_ndir (w_fdir s1 df2) dn2) in *.
  assert (F2 : flat g s2 n) by exact F.
  destruct (flat_define g s2 n h W F2 D2 Hh E) as (hf & hn & E3 & Hf & Hn). rewrite E3. cbn [rbind].
  set (s3 := w_nheight (w_height s2 hf) hn) in *.
  destruct (flat_heights o g s3 n h W F D2 Hh Al E Hf Hn) as (s4 & E4 & SR & Hn4). rewrite E4. cbn [rbind].
  destruct (move_nodes_ok o g s4 P) as (m & r & a & p & E5 & M1 & M2 & A1 & A2). rewrite E5. cbn [rbind].
  unfold same_rest in SR. destruct SR as (Q1 & Q2 & Q3 & Q4 & Q5 & Q6 & Q7 & Q8 & Q9).
  set (s5 := w_pos (w_actual (w_rest (w_move s4 m) r) a) p).
  assert (Mv : forall k, In k (nodes g) -> m k = vmul n h).
  { intros k Hk. destruct (M1 k Hk) as (-> & _). rewrite Q2, Hn4 by auto. f_equal. apply D2. auto. }
  assert (Pos : forall k, In k (nodes g) -> p k = vadd (n_pos s k) (vmul n h)).
  { intros k Hk. destruct (M1 k Hk) as (_ & ->). rewrite (Mv k Hk), Q1. reflexivity. }
  assert (T : forall f, In f (faces g) -> area (get_triangle g s5 f) = area (get_triangle g s f)).
  { intros f Hf'. apply (shifted_triangle g s s5 (vmul n h) f W Hf'). exact Pos. }
  assert (A : forall f, In f (faces g) -> 0 < area (get_triangle g s f)) by (intros f Hf'; eapply flat_area; eauto).
  destruct (tail_runs o g s5 W Zn) as (s6 & E6); [intros f Hf'; rewrite T by auto; specialize (A f Hf'); lra|].
  rewrite E6. apply tail_ok in E6; auto. destruct E6 as (sv & r' & -> & T1 & T2).
  assert (G : forall f, In f (faces g) -> grown g (w_move s4 m) f = area (get_triangle g s f) * h).
  { intros f Hf'. unfold grown. pose proof (F f Hf') as Fn. unfold get_triangle in *. destruct (f_nodes g f) as [[x y] z] eqn:En.
    destruct (Co f x y z Hf' En) as (Hx & Hy & Hz). cbn [n_pos n_move w_move]. rewrite !Mv, Q1 by auto.
    change (n_pos s3) with (n_pos s). rewrite (displaced_area_height _ _ _ _ n f Fn). f_equal.
    destruct (flat_unit g s n f F Hf') as (_ & U). replace (dot (vmul n h) n) with (dot n n * h) by (unfold dot, vmul; cbn; ring).
    rewrite U, Rmult_1_l. apply Rabs_right. lra. }
  eexists. split; [reflexivity|]. split; [exact Pos|]. split.
  - intros f Hf'. destruct (A1 f Hf') as (R1 & R2). cbn. rewrite (T1 f Hf'). unfold s5. cbn. rewrite R1, R2, G by auto.
    rewrite Q6, Q7. split; reflexivity.
  - split; cbn; [rewrite Q4|rewrite Q5]; reflexivity.
Qed.

Lemma chunks_run : forall g k s, plain_topo g -> (0 < k)%nat -> exists c, calc_ice_chunks g (Z.of_nat k) s = Ok (w_chunk s c) /\
  forall f, In f (faces g) -> c f = f_rest s f / INR k.
Proof.
  intros g k s P Hk. assert (K : 0 < INR k) by (apply lt_0_INR; lia). rewrite INR_IZR_INZ in K.
  assert (own : forall s v j, v j = f_chunk s j -> rdiv (f_rest (w_chunk s v) j) (IZR (Z.of_nat k)) = rdiv (f_rest s j) (IZR (Z.of_nat k))) by (intros [] v j _; reflexivity).
  destruct (loop_runs fd_chunk (fun s f => rdiv (f_rest s f) (IZR (Z.of_nat k))) own (faces g) s (proj1 P)) as (s' & E).
  { intros f _. rewrite rdiv_runs by lra. eauto. }
  pose proof E as E'. apply (chunks_ok g (Z.of_nat k) s s' P) in E'. destruct E' as (c & -> & C). exists c. split; [exact E|].
  intros f Hf. destruct (C f Hf) as (_ & ->). rewrite INR_IZR_INZ. auto.
Qed.

(** The ice of all steps: with redistribution the planned height, without it the planned height
    times the harmonic number. *)
Theorem flat_steps : forall o g n, whole g -> (nss_steps o <= 0)%Z -> 0 < nsmooth_k o -> 0 <= hsmooth_alfa o ->
  forall k s p, flat g s n -> 0 <= p -> (rest_volume_redistr o = true -> k = O -> p = 0) ->
  (forall f, In f (faces g) -> f_rest s f = area (get_triangle g s f) * p) ->
  exists s', steps o g k s = Ok s' /\
  let q := if rest_volume_redistr o then p else p * harmonic k in
  (forall x, In x (nodes g) -> n_pos s' x = vadd (n_pos s x) (vmul n q)) /\
  (forall f, In f (faces g) -> f_rest s' f = (if rest_volume_redistr o then 0 else f_rest s f) /\
                               f_actual s' f = f_actual s f + area (get_triangle g s f) * q) /\
  f_hi s' = f_hi s /\ f_target s' = f_target s.
Proof.
  intros o g n W Zn K Al. pose proof W as (P & _). induction k as [|k IH]; intros s p F Hp K0 R; cbn [steps].
  - exists s. split; auto. cbn [harmonic]. cbv zeta.
    assert (Q : (if rest_volume_redistr o then p else p * 0) = 0) by (destruct (rest_volume_redistr o); [auto|ring]).
    rewrite Q. split; [|split; [|split; auto]].
    + intros x Hx. unfold vadd, vmul. apply vect_eq; cbn; ring.
    + intros f Hf. split; [|ring]. destruct (rest_volume_redistr o) eqn:Er; auto. rewrite (R f Hf), (K0 eq_refl eq_refl). ring.
  - destruct (chunks_run g (S k) s P ltac:(lia)) as (c & E1 & C). rewrite E1. cbn [rbind].
    set (h := p / INR (S k)). assert (L : 0 < INR (S k)) by (apply lt_0_INR; lia).
    assert (L1 : 1 <= INR (S k)) by (rewrite S_INR; pose proof (pos_INR k); lra).
    assert (Hh : 0 <= h) by (apply Rmult_le_pos; auto; apply Rlt_le, Rinv_0_lt_compat; auto).
    assert (Hle : h <= p).
    { unfold h. apply (Rmult_le_reg_r (INR (S k))); auto. unfold Rdiv. rewrite Rmult_assoc, Rinv_l by lra. rewrite Rmult_1_r.
      pose proof (Rmult_le_compat_l p 1 (INR (S k)) Hp L1). lra. }
    set (s1 := w_chunk s c) in *.
    assert (E : even g s1 h).
    { intros f Hf. unfold s1. cbn [f_chunk w_chunk]. rewrite (C f Hf), (R f Hf). change (get_triangle g (w_chunk s c) f) with (get_triangle g s f).
      unfold h. field. lra. }
    destruct (flat_step o g s1 n h W F Zn K Al Hh E) as (s2 & E2 & Pos & Ice & H1 & H2). rewrite E2. cbn [rbind].
    assert (T : forall f, In f (faces g) -> area (get_triangle g s2 f) = area (get_triangle g s f) /\ normal_orth (get_triangle g s2 f) = normal_orth (get_triangle g s f)).
    { intros f Hf. apply (shifted_triangle g s s2 (vmul n h) f W Hf). exact Pos. }
    assert (F2 : flat g s2 n) by (intros f Hf; rewrite (proj2 (T f Hf)); apply F; auto).
    assert (A : forall f, In f (faces g) -> 0 < area (get_triangle g s f)) by (intros f Hf'; eapply flat_area; eauto).
    set (p2 := if rest_volume_redistr o then p - h else p).
    assert (R2 : forall f, In f (faces g) -> f_rest s2 f = area (get_triangle g s2 f) * p2).
    { intros f Hf. destruct (Ice f Hf) as (-> & _). rewrite (proj1 (T f Hf)). change (f_rest s1) with (f_rest s). change (get_triangle g s1 f) with (get_triangle g s f).
      rewrite (R f Hf). unfold rest_after, p2. destruct (rest_volume_redistr o); auto.
      replace (Rltb _ 0) with false; [ring|]. symmetry. apply Rltb_false. specialize (A f Hf).
      assert (0 <= area (get_triangle g s f) * (p - h)) by (apply Rmult_le_pos; lra). lra. }
    assert (Hp2 : 0 <= p2) by (unfold p2; destruct (rest_volume_redistr o); lra).
    assert (K2 : rest_volume_redistr o = true -> k = O -> p2 = 0).
    { intros Er ->. unfold p2, h. rewrite Er. change (INR 1) with 1. field. }
    destruct (IH s2 p2 F2 Hp2 K2 R2) as (s' & E3 & Pos3 & Ice3 & H3 & H4). exists s'. split; auto. cbv zeta in *.
    set (q := if rest_volume_redistr o then p else p * harmonic (S k)).
    set (q2 := if rest_volume_redistr o then p2 else p2 * harmonic k) in *.
    assert (Q : q = h + q2).
    { unfold q, q2, p2, h. destruct (rest_volume_redistr o); [ring|]. cbn [harmonic]. field. lra. }
    split; [|split; [|split]].
    + intros x Hx. rewrite (Pos3 x Hx), (Pos x Hx). change (n_pos s1) with (n_pos s). rewrite Q. unfold vadd, vmul. apply vect_eq; cbn; ring.
    + intros f Hf. destruct (Ice3 f Hf) as (-> & ->). destruct (Ice f Hf) as (I1 & ->). rewrite (proj1 (T f Hf)).
      change (get_triangle g s1 f) with (get_triangle g s f). change (f_actual s1) with (f_actual s). split; [|rewrite Q; ring].
      destruct (rest_volume_redistr o) eqn:Er; auto. rewrite I1. unfold rest_after. rewrite Er. reflexivity.
    + rewrite H3, H1. reflexivity.
    + rewrite H4, H2. reflexivity.
Qed.

Lemma plan_loop : forall g l s, NoDup l -> exists t r a,
  loop l (fun f s =>
    let s := w_target s (put (f_target s) f (area (get_triangle g s f) * f_hi s f)) in
    let s := w_rest s (put (f_rest s) f (f_target s f)) in
    Ok (w_actual s (put (f_actual s) f 0))) s = Ok (w_actual (w_rest (w_target s t) r) a) /\
  (forall f, In f l -> t f = area (get_triangle g s f) * f_hi s f /\ r f = t f /\ a f = 0) /\
  (forall f, ~ In f l -> t f = f_target s f /\ r f = f_rest s f /\ a f = f_actual s f).
Proof.
  intros g. induction l as [|x l IH]; intros s N.
  - exists (f_target s), (f_rest s), (f_actual s). split; [destruct s; reflexivity|]. split; [intros f []|auto].
  - apply NoDup_cons_iff in N. destruct N as (N1 & N2). cbn [loop rbind]. cbv zeta.
    match goal with |- context [loop l _ ?s1] => destruct (IH s1 N2) as (t & r & a & R & V1 & V2); set (s1' := s1) in * end.
    cbv zeta in R. exists t, r, a. split; [rewrite R; unfold s1'; destruct s; reflexivity|].
    assert (X1 : f_target s1' = put (f_target s) x (area (get_triangle g s x) * f_hi s x)) by (destruct s; reflexivity).
    assert (X2 : f_rest s1' = put (f_rest s) x (area (get_triangle g s x) * f_hi s x)).
    { unfold s1'. cbn. rewrite put_same. reflexivity. }
    assert (X3 : f_actual s1' = put (f_actual s) x 0) by (destruct s; reflexivity).
    assert (X4 : forall f, area (get_triangle g s1' f) * f_hi s1' f = area (get_triangle g s f) * f_hi s f) by (destruct s; reflexivity).
    split.
    + intros f [->|Hf].
      * destruct (V2 f N1) as (-> & -> & ->). rewrite X1, X2, X3, !put_same. auto.
      * destruct (V1 f Hf) as (Q1 & Q2 & Q3). rewrite X4 in Q1. auto.
    + intros f Hf. assert (f <> x) by (intros ->; apply Hf; left; auto). assert (~ In f l) by (intros Q; apply Hf; right; auto).
      destruct (V2 f) as (-> & -> & ->); auto. rewrite X1, X2, X3, !put_other by auto. auto.
Qed.

Lemma plan_ok : forall g s, plain_topo g -> exists t r a, plan_ice g s = Ok (w_actual (w_rest (w_target s t) r) a) /\
  forall f, In f (faces g) -> t f = area (get_triangle g s f) * f_hi s f /\ r f = t f /\ a f = 0.
Proof. intros g s P. destruct (plan_loop g (faces g) s (proj1 P)) as (t & r & a & E & V & _). exists t, r, a. split; auto. Qed.

(** The whole remesher on a flat surface with the same height everywhere. *)
Theorem flat_remesh : forall o g s n H N, whole g -> flat g s n -> (nss_steps o <= 0)%Z -> pseudo_2d_oz o = false ->
  0 < nsmooth_k o -> 0 <= hsmooth_alfa o -> 0 <= H -> (forall f, In f (faces g) -> f_hi s f = H) ->
  calculate_nsteps o g s = Ok N -> (1 <= N)%Z -> exists s', remesh o g s = Ok s' /\
  let q := if rest_volume_redistr o then H else H * harmonic (Z.to_nat N) in
  (forall k, In k (nodes g) -> n_pos s' k = vadd (n_pos s k) (vmul n q)) /\
  (forall f, In f (faces g) -> f_target s' f = area (get_triangle g s f) * H /\ f_actual s' f = area (get_triangle g s f) * q /\
      f_rest s' f = (if rest_volume_redistr o then 0 else f_target s' f) /\ f_hi s' f = 0).
Proof.
  intros o g s n H N W F Zn Z2 K Al HH Hi HN N1. pose proof W as (P & _). unfold remesh.
  destruct (plan_ok g s P) as (t & r & a & -> & V). cbn [rbind]. set (s1 := w_actual (w_rest (w_target s t) r) a).
  assert (HN1 : calculate_nsteps o g s1 = Ok N) by (rewrite <- HN; destruct s; reflexivity). rewrite HN1. cbn [rbind]. rewrite Z2. cbn [rbind].
  destruct (flat_steps o g n W Zn K Al (Z.to_nat N) s1 H) as (s2 & E2 & Pos & Ice & H1 & H2); [exact F|auto| | |].
  - intros _ Q. lia.
  - intros f Hf. unfold s1. cbn [f_rest w_actual w_rest]. destruct (V f Hf) as (Q1 & -> & _). rewrite Q1, (Hi f Hf). reflexivity.
  - rewrite E2. cbn [rbind].
    destruct (loop_pure fd_hi (fun _ _ => 0) (fun _ _ _ _ => eq_refl) (faces g) s2 (proj1 P)) as (hi & E3 & V3 & _). rewrite E3.
    eexists. split; [reflexivity|]. cbv zeta in *. split; [exact Pos|]. intros f Hf. destruct (Ice f Hf) as (I1 & I2). destruct (V f Hf) as (Q1 & Q2 & Q3).
    assert (TT : f_target (w_hi s2 hi) f = t f) by (cbn; rewrite H2; reflexivity).
    split; [rewrite TT, Q1, (Hi f Hf); auto|]. split; [|split].
    + change (f_actual (w_hi s2 hi) f) with (f_actual s2 f). rewrite I2. unfold s1. cbn [f_actual w_actual]. rewrite Q3, Rplus_0_l. reflexivity.
    + rewrite TT. change (f_rest (w_hi s2 hi) f) with (f_rest s2 f). rewrite I1. destruct (rest_volume_redistr o); auto.
    + cbn. apply V3. auto.
Qed.
