(** Property theorems about growing ice on a surface (C47 - C50, C57, C61, C64 - C68). *)

From Coq Require Import ZArith Reals Bool Lra Lia List.
From Verif Require Import Py Geom GeomSpec GeomProofs CloudProofs GeomMore Remesh RemeshSpec RemeshProofs DirProofs SmoothProofs
  StepsProofs GrowthProofs FlatProofs RemeshMore.
Import ListNotations.
Open Scope R_scope.

(* ---------------------------------------------------------------- *)
(** ** C47 *)

(** C47.  Smoothing of heights keeps the total of ice and changes nothing but chunks,
    local chunks and heights. *)
Theorem C47_total : forall o g s s', plain_topo g -> heights_smoothing o g s = Ok s' ->
  total (f_chunk s') (faces g) = total (f_chunk s) (faces g) /\ same_rest s s'.
Proof. exact smoothing_total. Qed.
Print Assumptions C47_total.

(** C47.  In one iteration ice goes over inner edges only, from the face with more height
    to the face with less. *)
Theorem C47_downhill : forall o g s s', plain_topo g -> 0 <= hsmooth_alfa o -> 0 <= hsmooth_beta o -> ice_ok g s ->
  smoothing_iteration o g s = Ok s' ->
  exists q, (forall e, In e (edges g) -> 0 <= q e) /\
    (forall e u l, In e (edges g) -> sides (f_height s) g e = Some (u, l) ->
       f_height s u = f_height s l -> q e = 0) /\
    (forall f, In f (faces g) -> f_chunk s' f = f_chunk s f - given (f_height s) g q f (edges g) + taken (f_height s) g q f (edges g)).
Proof. exact iteration_flow. Qed.
Print Assumptions C47_downhill.

(** C47.  With equal heights nothing changes. *)
Theorem C47_equal : forall o g s s', plain_topo g -> 0 <= hsmooth_alfa o -> 0 <= hsmooth_beta o -> ice_ok g s ->
  (forall f1 f2, In f1 (faces g) -> In f2 (faces g) -> f_height s f1 = f_height s f2) ->
  smoothing_iteration o g s = Ok s' -> forall f, In f (faces g) -> f_chunk s' f = f_chunk s f /\
  (face_shift g s f = Ok (f_height s f) -> f_height s' f = f_height s f).
Proof. exact iteration_equal_all. Qed.
Print Assumptions C47_equal.

(** C47.  No ice gets negative if at most a third of the difference goes over an edge, and
    the exception about negative shifts is not raised. *)
Theorem C47_sign : forall o g s, plain_topo g -> three_edges g -> 0 <= hsmooth_alfa o -> 0 <= hsmooth_beta o <= 1 / 3 ->
  ice_ok g s -> heights_smoothing o g s <> Raise EException /\
  forall s', heights_smoothing o g s = Ok s' -> ice_ok g s'.
Proof.
  exact (fun o g s P T A B I => conj (smoothing_no_negative o g s P T A B I) (fun s' => smoothing_sign o g s s' P T A B I)).
Qed.
Print Assumptions C47_sign.

(** Two faces of a square, ice of height 2 on the first one. *)
Example C47_example : plain_topo square /\ three_edges square /\ ice_ok square square_uneven /\
  (exists s', heights_smoothing (two_steps true) square square_uneven = Ok s') /\
  sides (f_height square_uneven) square 4 = Some (0, 1)%nat.
Proof.
  split; [apply square_whole|]. split; [apply square_three|]. split; [apply square_uneven_ice|].
  split; [apply square_uneven_smoothed|]. unfold sides. cbn. destruct (Rlt_dec 2 0); [lra|auto].
Qed.

(* ---------------------------------------------------------------- *)
(** ** C48 *)

(** C48.  The number of steps is between the given bounds. *)
Theorem C48_bounds : forall o g s n, calculate_nsteps o g s = Ok n -> (nsteps_min o <= n <= nsteps_max o)%Z.
Proof. exact nsteps_bounds. Qed.
Print Assumptions C48_bounds.

(** C48.  Wrong bounds are refused. *)
Theorem C48_refused : forall o g s, (nsteps_max o < nsteps_min o)%Z -> calculate_nsteps o g s = Raise EException.
Proof. exact nsteps_refused. Qed.
Print Assumptions C48_refused.

(** C48.  If with nsteps_max steps at most the allowed part of faces grows too fast, so it
    is with the number found. *)
Theorem C48_enough : forall o g s n bad_max bad,
  (forall f, In f (faces g) -> 0 <= f_hi s f /\ 0 < min_side (get_triangle g s f)) -> 0 < nsteps_hi_side_fact o ->
  0 <= nsteps_ignore_part o ->
  calculate_nsteps o g s = Ok n ->
  selected (too_fast o g s (nsteps_max o)) (faces g) bad_max ->
  INR (length bad_max) <= nsteps_ignore_part o * INR (length (faces g)) ->
  selected (too_fast o g s n) (faces g) bad ->
  INR (length bad) <= nsteps_ignore_part o * INR (length (faces g)).
Proof. exact nsteps_enough. Qed.
Print Assumptions C48_enough.

(** C48.  The number is found on every grid with faces that have area. *)
Theorem C48_found : forall o g s, (nsteps_min o <= nsteps_max o)%Z -> faces g <> [] ->
  (forall f, In f (faces g) -> area (get_triangle g s f) <> 0) ->
  0 < nsteps_hi_side_fact o -> 0 <= nsteps_ignore_part o < 1 -> exists n, calculate_nsteps o g s = Ok n.
Proof. exact (fun o g s M N A => nsteps_found o g s M N (fun f Hf => side_pos _ (A f Hf))). Qed.
Print Assumptions C48_found.

Example C48_example : faces square <> [] /\ (forall f, In f (faces square) -> area (get_triangle square (square_ice 3) f) <> 0) /\
  (nsteps_min default_options <= nsteps_max default_options)%Z /\ 0 < nsteps_hi_side_fact default_options /\
  0 <= nsteps_ignore_part default_options < 1.
Proof.
  split; [discriminate|]. split; [intros f Hf; rewrite square_area by auto; lra|]. cbn. split; [lia|lra].
Qed.

(* ---------------------------------------------------------------- *)
(** ** C49 *)

(** The steps of a run are a history and the other way round. *)
Theorem C49_history : forall o g k s s', steps o g k s = Ok s' <-> exists l, history o g k s l s'.
Proof. exact steps_history. Qed.
Print Assumptions C49_history.

(** C49.  With redistribution the rest of ice is not negative at every step and at the end,
    and each chunk is the rest over the number of steps to go. *)
Theorem C49_rest : forall o g k s l s', plain_topo g -> rest_volume_redistr o = true ->
  (forall f, In f (faces g) -> 0 <= f_rest s f) -> history o g k s l s' ->
  (forall i si f, nth_error l i = Some si -> In f (faces g) ->
     0 <= f_rest si f /\ f_chunk si f = f_rest si f / INR (k - i) /\ 0 <= f_chunk si f) /\
  (forall f, In f (faces g) -> 0 <= f_rest s' f).
Proof.
  exact (fun o g k s l s' P R H0 H => conj (history_chunks o g k s l s' P R H0 H)
    (steps_rest_nonneg o g k s s' P R H0 (proj2 (steps_history o g k s s') (ex_intro _ l H)))).
Qed.
Print Assumptions C49_rest.

(** C49.  Without redistribution the chunk of a step is the whole target over the number of
    steps to go (not equal shares, as the property says; see the refutation). *)
Theorem C49_shares_partial : forall o g k s l s', plain_topo g -> rest_volume_redistr o = false -> history o g k s l s' ->
  forall i si f, nth_error l i = Some si -> In f (faces g) -> f_chunk si f = f_rest s f / INR (k - i).
Proof. exact history_plain_chunks. Qed.
Print Assumptions C49_shares_partial.

(** C49.  Without redistribution chunks are not equal shares: on a flat square with two
    steps the ice grown is one and a half of the target. *)
Theorem C49_shares_refuted : exists o g s s', rest_volume_redistr o = false /\ remesh o g s = Ok s' /\
  exists f, In f (faces g) /\ 0 < f_target s' f /\ f_actual s' f = 3 / 2 * f_target s' f.
Proof.
  destruct (square_run false 1 ltac:(lra)) as (s' & E & I & _). exists (two_steps false), square, (square_ice 1), s'.
  split; auto. split; auto. exists O. split; [left; auto|]. destruct (I O (or_introl eq_refl)) as (-> & ->). lra.
Qed.
Print Assumptions C49_shares_refuted.

Example C49_example : plain_topo square /\ exists l s s', history (two_steps true) square 2 s l s' /\
  (forall f, In f (faces square) -> 0 <= f_rest s f).
Proof.
  split; [apply square_whole|]. set (s := w_rest (square_ice 0) (fun _ => 1 / 2)).
  destruct (flat_steps (two_steps true) square (V3 0 0 1) square_whole ltac:(cbn; lia) ltac:(cbn; lra) ltac:(cbn; lra) 2 s 1)
    as (s' & E & _); [exact (square_flat 0)|lra|discriminate| |].
  - intros f Hf. change (get_triangle square s f) with (get_triangle square (square_ice 0) f). rewrite square_area by auto. cbn. lra.
  - apply steps_history in E. destruct E as (l & H). exists l, s, s'. split; auto. intros f Hf. cbn. lra.
Qed.

(* ---------------------------------------------------------------- *)
(** ** C50 *)

(** C50.  A root that is used is not negative and solves the equation. *)
Theorem C50_root : forall a b v h, quadratic_shift a b v = Some h -> 0 <= h /\ a * h + b * h * h = v.
Proof. exact quadratic_solves. Qed.
Print Assumptions C50_root.

(** C50.  The formula is used whenever it can be. *)
Theorem C50_used : forall a b v, 0 <= a -> 0 <= v -> eps10 < Rabs b -> 0 <= a * a + 4 * b * v ->
  exists h, quadratic_shift a b v = Some h.
Proof. exact quadratic_used. Qed.
Print Assumptions C50_used.

(** C50.  The height of a face is not negative, and it solves either the equation for a
    prism or the quadratic equation. *)
Theorem C50_face : forall g s f h, face_shift g s f = Ok h -> 0 <= f_chunk s f ->
  area (get_triangle g s f) <> 0 /\ 0 <= h /\
  (area (get_triangle g s f) * h = f_chunk s f \/
   exists n n1 n2 n3 a b, f_nodes g f = (n1, n2, n3) /\ normal_orth (get_triangle g s f) = Ok n /\
     prizmatoid_volume_coefs (n_pos s n1) (n_pos s n2) (n_pos s n3) (n_dir s n1) (n_dir s n2) (n_dir s n3) n = Ok (a, b) /\
     a = area (get_triangle g s f) /\ a * h + b * h * h = f_chunk s f).
Proof. exact face_shift_ok. Qed.
Print Assumptions C50_face.

(** C50.  What the coefficients mean: the section of the prismatoid at the height [h]. *)
Theorem C50_coefficients : forall v1 v2 v3 n1 n2 n3 n a b r, normal_orth (Tri v1 v2 v3 r) = Ok n ->
  prizmatoid_volume_coefs v1 v2 v3 n1 n2 n3 n = Ok (a, b) ->
  forall h, let top v m := vadd v (vmul m (h / dot n m)) in
  / 2 * dot (cross (vsub (top v2 n2) (top v1 n1)) (vsub (top v3 n3) (top v1 n1))) n =
  a + 2 * b * h +
  h * h / 2 * dot (cross (vsub (vmul n2 (1 / dot n n2)) (vmul n1 (1 / dot n n1)))
                         (vsub (vmul n3 (1 / dot n n3)) (vmul n1 (1 / dot n n1)))) n.
Proof. exact coefs_meaning. Qed.
Print Assumptions C50_coefficients.

(** C50.  Heights of nodes are the means of heights of their faces; nothing else is
    written, and no exception about negative shifts is raised if no chunk is negative. *)
Theorem C50_nodes : forall g s, plain_topo g -> (forall f, In f (faces g) -> 0 <= f_chunk s f) ->
  define_ice_shifts g s <> Raise EException /\
  forall s', define_ice_shifts g s = Ok s' -> exists hf hn, s' = w_nheight (w_height s hf) hn /\
    (forall f, In f (faces g) -> face_shift g s f = Ok (hf f)) /\
    (forall n, In n (nodes g) -> n_faces g n <> [] /\ 0 <= hn n /\ hn n = total hf (n_faces g n) / INR (length (n_faces g n))).
Proof. exact (fun g s P C => conj (define_ice_shifts_sign g s P C) (fun s' => define_ice_shifts_ok g s s' P)). Qed.
Print Assumptions C50_nodes.

(** a = 1, b = 1, v = 2: the root is 1. *)
Example C50_example : exists h, quadratic_shift 1 1 2 = Some h.
Proof.
  apply quadratic_used; try lra. rewrite Rabs_right by lra. unfold eps10. lra.
Qed.

(* ---------------------------------------------------------------- *)
(** ** C57 *)

(** C57.  Nodes move by their shifts; border nodes stay if they are fixed; nothing else
    changes. *)
Theorem C57_shifts : forall fix_ border g shifts s, NoDup (nodes g) -> length (nodes g) = length shifts -> exists p,
  apply_shifts fix_ border g shifts s = Ok (w_pos s p) /\
  (forall i n v, nth_error (nodes g) i = Some n -> nth_error shifts i = Some v ->
     (fix_ = true /\ border n = true -> p n = n_pos s n) /\
     (fix_ = false \/ border n = false -> p n = vadd (n_pos s n) v)) /\
  (forall n, ~ In n (nodes g) -> p n = n_pos s n).
Proof. exact apply_shifts_ok. Qed.
Print Assumptions C57_shifts.

(** C57.  A wrong number of shifts is refused. *)
Theorem C57_refused : forall fix_ border g shifts s, length (nodes g) <> length shifts ->
  apply_shifts fix_ border g shifts s = Raise EAssertionError.
Proof. exact apply_shifts_refused. Qed.
Print Assumptions C57_refused.

Example C57_example : NoDup (nodes square) /\ length (nodes square) = length [V3 0 0 1; V3 0 0 2; V3 1 0 0; V3 0 0 0].
Proof. split; [apply square_whole|reflexivity]. Qed.

(* ---------------------------------------------------------------- *)
(** ** C61 *)

(** C61.  A weighted sum is in every half-space that contains the vectors, that is, it is
    a convex combination. *)
Theorem C61_convex : forall a w, a <> [] -> length a = length w -> (forall x, In x w -> 0 < x) ->
  exists v, wsum a w = Ok v /\ forall d c, (forall x, In x a -> dot d x <= c) -> dot d v <= c.
Proof. exact wsum_convex. Qed.
Print Assumptions C61_convex.

(** C61.  It is in every box that contains the vectors. *)
Theorem C61_box : forall a w v b, length a = length w -> (forall x, In x w -> 0 < x) -> a <> [] -> wsum a w = Ok v ->
  (forall x, In x a -> in_box b x) -> in_box b v.
Proof. exact wsum_box. Qed.
Print Assumptions C61_box.

(** C61.  The sum of equal vectors. *)
Theorem C61_equal : forall a w v, length a = length w -> (forall x, In x w -> 0 < x) -> a <> [] ->
  (forall x, In x a -> x = v) -> wsum a w = Ok v.
Proof. exact wsum_equal. Qed.
Print Assumptions C61_equal.

Example C61_example : [V3 0 0 0; V3 1 2 3] <> [] /\ length [V3 0 0 0; V3 1 2 3] = length [1; 2] /\ (forall x, In x [1; 2] -> 0 < x).
Proof. split; [discriminate|]. split; auto. intros x [<-|[<-|[]]]; lra. Qed.

(* ---------------------------------------------------------------- *)
(** ** C64 *)

(** C64.  The number of steps is not the least one that is enough: on a square without any
    ice one step is enough, and ten are found. *)
Theorem C64_least_refuted : exists o g s n, calculate_nsteps o g s = Ok n /\ n = 10%Z /\ (nsteps_min o <= 1)%Z /\
  forall f, In f (faces g) -> f_hi s f = 0 /\ ~ too_fast o g s 1 f.
Proof.
  exists default_options, square, (square_ice 0), 10%Z. split; [apply square_ten|]. split; auto. split; [cbn; lia|].
  intros f Hf. split; [reflexivity|apply square_one; auto].
Qed.
Print Assumptions C64_least_refuted.

(** C64.  What holds: if not a single face may be ignored, the number is always nsteps_max. *)
Theorem C64_small_partial : forall o g s n, 0 <= nsteps_ignore_part o -> INR (length (faces g)) * nsteps_ignore_part o < 1 ->
  calculate_nsteps o g s = Ok n -> n = nsteps_max o.
Proof. exact nsteps_small. Qed.
Print Assumptions C64_small_partial.

Example C64_example : 0 <= nsteps_ignore_part default_options /\ INR (length (faces square)) * nsteps_ignore_part default_options < 1 /\
  calculate_nsteps default_options square (square_ice 0) = Ok 10%Z.
Proof. split; [cbn; lra|]. split; [cbn; lra|apply square_ten]. Qed.

(* ---------------------------------------------------------------- *)
(** ** C65 *)

(** C65.  On a flat surface with the same height of ice everywhere remeshing ends without
    errors; every node moves along the normal by this height (with redistribution) or by
    the height times 1 + 1/2 + ... + 1/N (without it). *)
Theorem C65_flat : forall o g s n H N, whole g -> flat g s n -> (nss_steps o <= 0)%Z -> pseudo_2d_oz o = false ->
  0 < nsmooth_k o -> 0 <= hsmooth_alfa o -> 0 <= H -> (forall f, In f (faces g) -> f_hi s f = H) ->
  calculate_nsteps o g s = Ok N -> (1 <= N)%Z -> exists s', remesh o g s = Ok s' /\
  let q := if rest_volume_redistr o then H else H * harmonic (Z.to_nat N) in
  (forall k, In k (nodes g) -> n_pos s' k = vadd (n_pos s k) (vmul n q)) /\
  (forall f, In f (faces g) -> f_target s' f = area (get_triangle g s f) * H /\ f_actual s' f = area (get_triangle g s f) * q /\
      f_rest s' f = (if rest_volume_redistr o then 0 else f_target s' f) /\ f_hi s' f = 0).
Proof. exact flat_remesh. Qed.
Print Assumptions C65_flat.

Example C65_example : whole square /\ flat square (square_ice 1) (V3 0 0 1) /\
  calculate_nsteps (two_steps true) square (square_ice 1) = Ok 2%Z.
Proof. split; [apply square_whole|]. split; [apply square_flat|apply two_found]. Qed.

(* ---------------------------------------------------------------- *)
(** ** C66 *)

(** C66.  In one step every node moves along its direction, which is not longer than one, by
    its height, so not farther than by this height. *)
Theorem C66_moves : forall o g s s', whole g -> 0 < nsmooth_k o -> remesh_step o g s = Ok s' ->
  forall k, In k (nodes g) -> 0 <= n_height s' k /\ vmod (n_dir s' k) <= 1 /\
    n_pos s' k = vadd (n_pos s k) (vmul (n_dir s' k) (n_height s' k)) /\
    vmod (vsub (n_pos s' k) (n_pos s k)) <= n_height s' k.
Proof. exact step_moves. Qed.
Print Assumptions C66_moves.

(** C66.  Points that are not nodes of the grid stay. *)
Theorem C66_others : forall o g k s s', plain_topo g -> steps o g k s = Ok s' ->
  forall n, ~ In n (nodes g) -> n_pos s' n = n_pos s n.
Proof. exact (fun o g k s s' P H => proj2 (proj2 (steps_actual o g k s s' P H))). Qed.
Print Assumptions C66_others.

Example C66_example : exists s s', remesh_step (two_steps true) square s = Ok s' /\ whole square /\ 0 < nsmooth_k (two_steps true).
Proof.
  destruct (flat_step (two_steps true) square (w_chunk (square_ice 0) (fun _ => 1 / 2)) (V3 0 0 1) 1 square_whole (square_flat 0)
    ltac:(cbn; lia) ltac:(cbn; lra) ltac:(cbn; lra) ltac:(lra)) as (s' & E & _).
  - intros f Hf. change (get_triangle square (w_chunk (square_ice 0) (fun _ => 1 / 2)) f) with (get_triangle square (square_ice 0) f).
    rewrite square_area by auto. cbn. lra.
  - eexists. exists s'. split; [exact E|]. split; [apply square_whole|cbn; lra].
Qed.

(* ---------------------------------------------------------------- *)
(** ** C67 *)

(** C67.  With null space smoothing steps no run ends normally on any grid. *)
Theorem C67_null_space_never : forall o g s s' k, (0 < nss_steps o)%Z -> calculate_nsteps o g s = Ok k -> (1 <= k)%Z -> plain_topo g ->
  remesh o g s <> Ok s'.
Proof. exact nss_refused. Qed.
Print Assumptions C67_null_space_never.

(** C67.  With the option pseudo_2d_oz no run ends normally on any grid. *)
Theorem C67_pseudo_2d_never : forall o g s s', pseudo_2d_oz o = true -> remesh o g s <> Ok s'.
Proof. exact pseudo_2d_refused. Qed.
Print Assumptions C67_pseudo_2d_never.

(** C67.  So the options are not usable: a grid and a state on which the run with default
    values of these options ends and the runs with each of them switched on do not. *)
Theorem C67_options_refuted : exists g s, (exists s', remesh (two_steps true) g s = Ok s') /\
  (forall s', remesh (Opt 2 2 (1 / 10) (5 / 100) 1 10 (15 / 100) 1 (2 / 10) (1 / 10) true 5 false) g s <> Ok s') /\
  (forall s', remesh (Opt 2 2 (1 / 10) (5 / 100) 1 10 (15 / 100) 1 (2 / 10) (1 / 10) true 0 true) g s <> Ok s').
Proof.
  exists square, (square_ice 1). destruct (square_run true 1 ltac:(lra)) as (s' & E & _). split; [eauto|]. split; intros s''.
  - apply (nss_refused _ _ _ _ 2); [cbn; lia|exact (two_found true 1)|lia|apply square_whole].
  - apply pseudo_2d_refused. reflexivity.
Qed.
Print Assumptions C67_options_refuted.

Example C67_example : (0 < nss_steps (Opt 2 2 (1 / 10) (5 / 100) 1 10 (15 / 100) 1 (2 / 10) (1 / 10) true 5 false))%Z /\
  calculate_nsteps (Opt 2 2 (1 / 10) (5 / 100) 1 10 (15 / 100) 1 (2 / 10) (1 / 10) true 5 false) square (square_ice 1) = Ok 2%Z.
Proof. split; [cbn; lia|]. exact (two_found true 1). Qed.

(* ---------------------------------------------------------------- *)
(** ** C68 *)

(** C68.  After a run with redistribution: the target is the area times the height that was
    asked for; what is grown and what is left make at least the target, and exactly the
    target while something is left; the heights asked for are cleared. *)
Theorem C68_balance : forall o g s s', plain_topo g -> rest_volume_redistr o = true ->
  (forall f, In f (faces g) -> 0 <= f_hi s f) -> remesh o g s = Ok s' ->
  forall f, In f (faces g) ->
    f_target s' f = area (get_triangle g s f) * f_hi s f /\ 0 <= f_rest s' f /\ 0 <= f_actual s' f /\
    f_target s' f <= f_rest s' f + f_actual s' f /\ (0 < f_rest s' f -> f_rest s' f + f_actual s' f = f_target s' f) /\
    f_hi s' f = 0.
Proof. exact remesh_balance. Qed.
Print Assumptions C68_balance.

Example C68_example : plain_topo square /\ exists s', remesh (two_steps true) square (square_ice 1) = Ok s'.
Proof.
  split; [apply square_whole|]. destruct (square_run true 1 ltac:(lra)) as (s' & E & _). eauto.
Qed.
