(** Consequences for grids, and concrete points. *)

From Coq Require Import ZArith NArith Reals Lra Lia Ascii String Bool List Permutation.
From Flocq Require Import Core.Core IEEE754.BinarySingleNaN.
From Verif Require Import Py Heap GridModel GridSpec GridIO FileSpec StoreSpec LoadProps LoadMain RoundTrip LoadPlace CollapseNode Samples SamplesIO Atomic AtomicSpec CollapseSpec Double DoubleSpec DoubleProofs DoubleMore DoubleGeomSpec DoubleGeom DoubleDist DoubleCases.
Import ListNotations.
Open Scope list_scope.
Open Scope nat_scope.

(** The sides of a grid have a positive length. *)
Theorem edge_length : forall (h : @heap DoubleOps) e a b, topo_ok h -> nodes_merged h -> In e (g_edges h) -> e_nodes h e = [a; b] -> finite_pt (n_p h a) -> finite_pt (n_p h b) ->
  exists v, len_edge h e = Ok v /\ v = @vdist DoubleOps (n_p h a) (n_p h b) /\ v = @vdist DoubleOps (n_p h b) (n_p h a) /\ @vltb DoubleOps (@val0 DoubleOps) v = true.
Proof.
  intros h e a b T (N1 & _ & N3) He E Fa Fb. exists (@vdist DoubleOps (n_p h a) (n_p h b)). unfold len_edge. rewrite E. split; [reflexivity|]. split; [reflexivity|].
  split; [apply dist_sym; assumption|]. apply dist_pos; [assumption|assumption|].
  destruct (t_edge_nodes h T e He) as (_ & Nd & I). rewrite E in Nd, I. assert (Ia : In a (g_nodes h)) by (apply I; left; reflexivity). assert (Ib : In b (g_nodes h)) by (apply I; right; left; reflexivity).
  rewrite <- (N3 a Ia), <- (N3 b Ib). intros Q. assert (Ne : a <> b) by (intros ->; inversion Nd as [|? ? K]; apply K; left; reflexivity). apply Ne. clear - N1 Ia Ib Q.
  induction (g_nodes h) as [|c l IH]; [destruct Ia|]. inversion N1 as [|? ? K1 K2]. destruct Ia as [->|Ia], Ib as [->|Ib]; auto.
  - exfalso. apply K1. rewrite Q. apply in_map. exact Ib.
  - exfalso. apply K1. rewrite <- Q. apply in_map. exact Ia.
Qed.

Theorem loaded_length : forall text h (h' : @heap DoubleOps) evs e, @load DoubleOps true text h = (Ok tt, h') -> @file_form DoubleOps [] (file_lines text) evs ->
  @no_degenerate DoubleOps (@zones_of DoubleOps evs) -> Forall finite_pt (all_pts (@zones_of DoubleOps evs)) -> In e (g_edges h') ->
  exists a b v, a <> b /\ e_nodes h' e = [a; b] /\ len_edge h' e = Ok v /\ v = @vdist DoubleOps (n_p h' a) (n_p h' b) /\ @vltb DoubleOps (@val0 DoubleOps) v = true.
Proof.
  intros text h h' evs e L Hf Nd Fi He. pose proof (@load_incidence DoubleOps true text h h' _ L Hf (or_introl eq_refl) Nd) as T.
  destruct (@load_result DoubleOps _ _ _ _ _ L Hf) as [R _]. destruct R. specialize (ld_merge eq_refl).
  assert (M : nodes_merged h') by (split; [auto|split; auto]).
  assert (P : forall n, In n (g_nodes h') -> finite_pt (n_p h' n)).
  { intros n Hn. assert (Hi : In (n_p h' n) (firsts (all_pts (zones_of evs)))) by (rewrite <- ld_pts; apply in_map; auto).
    apply firsts_in in Hi as (u & w & Eu & _). apply (proj1 (Forall_forall _ _) Fi). rewrite Eu. apply in_app_iff. right. left. reflexivity. }
  destruct (t_edge_nodes h' T e He) as (Len & NdE & I). destruct (e_nodes h' e) as [|a [|b [|c l]]] eqn:E; try discriminate Len.
  assert (Fa : finite_pt (n_p h' a)) by (apply P, I; left; reflexivity). assert (Fb : finite_pt (n_p h' b)) by (apply P, I; right; left; reflexivity).
  destruct (edge_length h' e a b T M He E Fa Fb) as (v & A & B & _ & C). exists a, b, v. split; [intros ->; inversion NdE as [|? ? K]; apply K; left; reflexivity|]. auto.
Qed.

(** The node left by the contraction of an edge. *)
Theorem collapse_box : forall (h h' : @heap DoubleOps) edge e1 e2 f1 f2 n1 n2, contracted h h' edge e1 e2 f1 f2 n1 n2 -> finite_pt (n_p h n1) -> finite_pt (n_p h n2) ->
  at_most (bpow radix2 1022) (n_p h n1) -> at_most (bpow radix2 1022) (n_p h n2) -> finite_pt (n_p h' n1) /\ in_box (n_p h n1) (n_p h n2) (n_p h' n1).
Proof.
  intros h h' edge e1 e2 f1 f2 n1 n2 C F1 F2 A1 A2. rewrite (ct_place _ _ _ _ _ _ _ _ _ C). destruct (middle_main _ _ F1 F2 A1 A2) as (X & Y & _). auto.
Qed.

Theorem face_center : forall (h : @heap DoubleOps) f a b c r M, f_nodes h f = a :: b :: c :: r -> finite_pt (n_p h a) -> finite_pt (n_p h b) -> finite_pt (n_p h c) ->
  at_most M (n_p h a) -> at_most M (n_p h b) -> at_most M (n_p h c) -> (M <= bpow radix2 1020)%R ->
  let m := get_center h f in finite_pt m /\
  (Rabs (rx m - (rx (n_p h a) + rx (n_p h b) + rx (n_p h c)) / 3) <= bpow radix2 (-51) * M + bpow radix2 (-1073))%R /\
  (Rabs (ry m - (ry (n_p h a) + ry (n_p h b) + ry (n_p h c)) / 3) <= bpow radix2 (-51) * M + bpow radix2 (-1073))%R /\
  (Rabs (rz m - (rz (n_p h a) + rz (n_p h b) + rz (n_p h c)) / 3) <= bpow radix2 (-51) * M + bpow radix2 (-1073))%R.
Proof. intros h f a b c r M E Fa Fb Fc A B C HM m. unfold m, get_center. rewrite E. exact (center_main _ _ _ M Fa Fb Fc A B C HM). Qed.

(* ---------------------------------------------------------------- *)
(** * Concrete points *)

Definition at_x (t : string) : @pt DoubleOps := (d (lit t), d (lit "0"), d (lit "0")).

Lemma less_R : forall x y : number, is_finite (proj1_sig x) = true -> is_finite (proj1_sig y) = true -> @vltb DoubleOps x y = true -> (B2R (proj1_sig x) < B2R (proj1_sig y))%R.
Proof. intros x y Fx Fy H. cbn [vltb DoubleOps] in H. rewrite Bltb_correct in H by assumption. destruct (Rlt_bool_spec (B2R (proj1_sig x)) (B2R (proj1_sig y))); [assumption|discriminate]. Qed.

Lemma order_main : exists p q r : @pt DoubleOps, finite_pt p /\ finite_pt q /\ finite_pt r /\ (rx (@vcen DoubleOps r q p) < rx (@vcen DoubleOps p q r))%R.
Proof.
  exists (at_x "0.1"), (at_x "0.2"), (at_x "0.3"). split; [vm_compute; auto|]. split; [vm_compute; auto|]. split; [vm_compute; auto|].
  unfold at_x. rewrite !cen_at. cbn [rx]. apply less_R; vm_compute; reflexivity.
Qed.

Lemma outside_main : exists p q r : @pt DoubleOps, finite_pt p /\ finite_pt q /\ finite_pt r /\ rx p = rx q /\ rx q = rx r /\ (rx p < rx (@vcen DoubleOps p q r))%R.
Proof.
  exists (at_x "0.1"), (at_x "0.1"), (at_x "0.1"). split; [vm_compute; auto|]. split; [vm_compute; auto|]. split; [vm_compute; auto|]. split; [reflexivity|]. split; [reflexivity|].
  unfold at_x. rewrite !cen_at. cbn [rx]. apply less_R; vm_compute; reflexivity.
Qed.

Lemma overflow_main : exists p q : @pt DoubleOps, finite_pt p /\ finite_pt q /\ ~ finite_pt (@vmid DoubleOps p q) /\ @vmid DoubleOps p p <> p.
Proof.
  exists (at_x "1.7e308"), (at_x "1e308"). split; [vm_compute; auto|]. split; [vm_compute; auto|]. split.
  - intros (A & _). vm_compute in A. discriminate A.
  - intros E. assert (K : @vltb DoubleOps (let '(x, _, _) := at_x "1.7e308" in x) (let '(x, _, _) := @vmid DoubleOps (at_x "1.7e308") (at_x "1.7e308") in x) = true) by (vm_compute; reflexivity).
    rewrite E in K. vm_compute in K. discriminate K.
Qed.

Lemma zero_main : exists p q : @pt DoubleOps, finite_pt p /\ finite_pt q /\ (rx p < rx q)%R /\ @vdist DoubleOps p q = @val0 DoubleOps.
Proof.
  exists (at_x "0"), (at_x "1e-170"). split; [vm_compute; auto|]. split; [vm_compute; auto|]. split.
  - apply less_R; vm_compute; reflexivity.
  - assert (E : @fmt DoubleOps (@vdist DoubleOps (at_x "0") (at_x "1e-170")) = @fmt DoubleOps (@val0 DoubleOps)) by (vm_compute; reflexivity).
    pose proof (double_faithful (@vdist DoubleOps (at_x "0") (at_x "1e-170"))) as (A & _). pose proof (double_faithful (@val0 DoubleOps)) as (B & _). rewrite E in A. congruence.
Qed.

(** Points at one metre. *)
Lemma one_R : B2R (proj1_sig (d (lit "1"))) = 1%R /\ B2R (proj1_sig (d (lit "0"))) = 0%R.
Proof.
  split; [|reflexivity]. assert (E : B2SF (proj1_sig (d (lit "1"))) = Floats.SpecFloat.S754_finite false 4503599627370496 (-52)) by (vm_compute; reflexivity).
  rewrite <- SF2R_B2SF, E. unfold SF2R, F2R. cbn. lra.
Qed.

Lemma unit_case : finite_pt (at_x "0") /\ finite_pt (at_x "1") /\ at_most 1024 (at_x "0") /\ at_most 1024 (at_x "1") /\ apart (ten (-10) * (2 + / 100)) (at_x "0") (at_x "1") /\
  @rnd DoubleOps (at_x "0") <> @rnd DoubleOps (at_x "1") /\ map (fun v => @fmt DoubleOps v) (let '(x, y, z) := @vmid DoubleOps (at_x "0") (at_x "1") in [x; y; z]) = [lit "5.000000000000000000e-01"; lit "0.000000000000000000e+00"; lit "0.000000000000000000e+00"].
Proof.
  destruct one_R as [O Z]. split; [vm_compute; auto|]. split; [vm_compute; auto|]. unfold at_most, apart, at_x. cbn [rx ry rz]. rewrite O, Z.
  split; [rewrite Rabs_R0; lra|]. split; [rewrite Rabs_R0, Rabs_R1; lra|]. split.
  { left. rewrite Rminus_0_l, Rabs_Ropp, Rabs_R1. unfold ten. cbn. lra. }
  split; [intros E; vm_compute in E; discriminate E|vm_compute; reflexivity].
Qed.

Fixpoint nodupb (l : list (@rc DoubleOps)) : bool := match l with [] => true | x :: r => negb (existsb (@rc_eqb DoubleOps x) r) && nodupb r end.
Lemma nodups : forall l, forallb nodupb l = true -> Forall (@NoDup (@rc DoubleOps)) l.
Proof.
  intros l H. apply Forall_forall. intros x I. rewrite forallb_forall in H. specialize (H x I). clear I. induction x as [|y r IH]; [constructor|]. cbn in H. apply andb_prop in H as [A B].
  constructor; auto. intros K. rewrite (proj2 (existsb_exists _ _)) in A; [discriminate|]. exists y. split; [exact K|]. apply CollapseNode.rc_eqb_eq. reflexivity.
Qed.

Lemma tiny_case : @no_degenerate DoubleOps [tinyA; tinyB] /\ Forall finite_pt (all_pts [tinyA; tinyB]) /\
  exists h', @load DoubleOps true tiny (new_grid empty_heap) = (Ok tt, h') /\ length (g_edges h') = 5.
Proof.
  split; [|split].
  - intros t I.
    apply (proj1 (Forall_forall (@NoDup _) (@file_faces DoubleOps [tinyA; tinyB]))); [|exact I]. apply nodups. vm_compute. reflexivity.
  - repeat constructor.
  - eexists. split; [apply ok_pair; vm_compute; reflexivity|vm_compute; reflexivity].
Qed.
