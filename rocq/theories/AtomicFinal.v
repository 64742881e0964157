(** Statements about atomic transformations with counts, and counterexamples. *)

From Coq Require Import ZArith NArith Ascii String Bool Lia List Permutation.
From Verif Require Import Py PyLemmas Heap HeapLemmas GridModel GridSpec GridIO FileSpec LoadProps StoreProofs RoundTrip Atomic AtomicSpec AtomicActs
  AtomicRun AtomicProofs AtomicTwo AtomicCut AtomicInner AtomicFlip AtomicMain AtomicSeq DecompProofs Samples SamplesStore SamplesIO SamplesAtomic.
Import ListNotations.
Open Scope list_scope.
Open Scope nat_scope.

Section Final.
  Context {F : FloatOps}.

  Ltac by_counts T Pa := let K := fresh in
    pose proof (patched_counts _ _ _ _ T Pa) as K; cbn [gone_faces gone_edges made_nodes made_edges made_faces length] in K;
    destruct K as (? & ? & ?); [| |unfold counts; repeat split; lia].

  Theorem divide_main : forall h face p n1 n2 n3, consistent h -> In face (g_faces h) -> new_point h p ->
    f_nodes h face = [n1; n2; n3] ->
    exists h' n e4 e5 e6 f1 f2 f3, divide_face face p h = (Ok tt, h') /\ consistent h' /\ counts h h' 1 3 2 /\
      patched h h' (mkPatch [face] [] [(n, p)] [(e4, (n1, n)); (e5, (n2, n)); (e6, (n3, n))]
        [(f1, (n1, n2, n), face); (f2, (n2, n3, n), face); (f3, (n1, n3, n), face)]).
  Proof.
    intros h face p n1 n2 n3 Co Hf Hp En. pose proof Co as (T & _).
    destruct (divide_face_ok h face p n1 n2 n3 Co Hf Hp En) as (h' & n & e4 & e5 & e6 & f1 & f2 & f3 & E & Co' & Pa).
    exists h', n, e4, e5, e6, f1, f2, f3. split; [auto|]. split; [auto|]. split; [|auto].
    by_counts T Pa; repeat constructor; intros [].
  Qed.

  Theorem single_main : forall h edge face p n1 n2, consistent h -> In edge (g_edges h) ->
    e_faces h edge = [face] -> e_nodes h edge = [n1; n2] -> new_point h p ->
    exists h' n3 n e1 e2 e3 f1 f2, In n3 (f_nodes h face) /\ n3 <> n1 /\ n3 <> n2 /\
      cut_single_edge edge p h = (Ok true, h') /\ consistent h' /\ counts h h' 1 2 1 /\
      patched h h' (mkPatch [face] [edge] [(n, p)] [(e1, (n, n1)); (e2, (n, n2)); (e3, (n, n3))]
        [(f1, (n3, n, n1), face); (f2, (n3, n, n2), face)]).
  Proof.
    intros h edge face p n1 n2 Co He Ef En Hp. pose proof Co as (T & _).
    destruct (cut_single_edge_ok h edge face p n1 n2 Co He Ef En Hp) as (h' & n3 & n & e1 & e2 & e3 & f1 & f2 & H1 & H2 & H3 & E & Co' & Pa).
    exists h', n3, n, e1, e2, e3, f1, f2. repeat (split; [assumption|]). split; [|auto].
    by_counts T Pa; repeat constructor; intros [].
  Qed.

  Theorem cut_main : forall h edge f1 f2 p n1 n2, consistent h -> no_double_faces h -> In edge (g_edges h) ->
    e_faces h edge = [f1; f2] -> e_nodes h edge = [n1; n2] -> new_point h p -> f_zone h f1 = f_zone h f2 ->
    exists h' n3 n4 n e1 e2 e3 e4 g1 g2 g3 g4,
      In n3 (f_nodes h f1) /\ n3 <> n1 /\ n3 <> n2 /\ In n4 (f_nodes h f2) /\ n4 <> n1 /\ n4 <> n2 /\ n3 <> n4 /\
      cut_edge edge p h = (Ok true, h') /\ consistent h' /\ counts h h' 1 3 2 /\
      patched h h' (mkPatch [f1; f2] [edge] [(n, p)]
        [(e1, (n1, n)); (e2, (n2, n)); (e3, (n3, n)); (e4, (n4, n))]
        [(g1, (n, n2, n3), f1); (g2, (n, n1, n3), f1); (g3, (n, n1, n4), f2); (g4, (n, n2, n4), f2)]).
  Proof.
    intros h edge f1 f2 p n1 n2 Co Nd He Ef En Hp Hz. pose proof Co as (T & _).
    destruct (t_edge_faces h T edge He) as (_ & Nf & If). rewrite Ef in Nf, If.
    destruct (cut_edge_ok h edge f1 f2 p n1 n2 Co He Ef En Hp) as
      (h' & n3 & n4 & n & e1 & e2 & e3 & e4 & g1 & g2 & g3 & g4 & H1 & H2 & H3 & H4 & H5 & H6 & H7 & E & Co' & Pa); auto.
    exists h', n3, n4, n, e1, e2, e3, e4, g1, g2, g3, g4. repeat (split; [assumption|]). split; [|auto].
    by_counts T Pa; auto; repeat constructor; intros [].
  Qed.

  Theorem border_two_main : forall h edge face p1 p2 n1 n2, consistent h -> In edge (g_edges h) ->
    e_faces h edge = [face] -> e_nodes h edge = [n1; n2] -> new_point h p1 -> new_point h p2 -> rnd p1 <> rnd p2 ->
    exists h' n3 n4 n5 e1 e2 e3 e4 e5 f1 f2 f3, In n3 (f_nodes h face) /\ n3 <> n1 /\ n3 <> n2 /\
      cut_edge_with_two_nodes edge p1 p2 h = (Ok true, h') /\ consistent h' /\ counts h h' 2 4 2 /\
      patched h h' (mkPatch [face] [edge] [(n4, p1); (n5, p2)]
        [(e1, (n1, n4)); (e2, (n2, n5)); (e3, (n4, n5)); (e4, (n3, n4)); (e5, (n3, n5))]
        [(f1, (n1, n3, n4), face); (f2, (n3, n4, n5), face); (f3, (n2, n3, n5), face)]).
  Proof.
    intros h edge face p1 p2 n1 n2 Co He Ef En Hp1 Hp2 Hne. pose proof Co as (T & _).
    destruct (cut_border_two_ok h edge face p1 p2 n1 n2 Co He Ef En Hp1 Hp2 Hne) as
      (h' & n3 & n4 & n5 & e1 & e2 & e3 & e4 & e5 & f1 & f2 & f3 & H1 & H2 & H3 & E & Co' & Pa).
    exists h', n3, n4, n5, e1, e2, e3, e4, e5, f1, f2, f3. repeat (split; [assumption|]). split; [|auto].
    by_counts T Pa; repeat constructor; intros [].
  Qed.

  Theorem inner_two_main : forall h edge f1 f2 p1 p2 n1 n2, consistent h -> no_double_faces h -> In edge (g_edges h) ->
    e_faces h edge = [f1; f2] -> e_nodes h edge = [n1; n2] -> new_point h p1 -> new_point h p2 -> rnd p1 <> rnd p2 ->
    f_zone h f1 = f_zone h f2 ->
    exists h' n3 n6 n4 n5 e1 e2 e3 e4 e5 e6 e7 g1 g2 g3 g4 g5 g6,
      In n3 (f_nodes h f1) /\ n3 <> n1 /\ n3 <> n2 /\ In n6 (f_nodes h f2) /\ n6 <> n1 /\ n6 <> n2 /\ n3 <> n6 /\
      cut_edge_with_two_nodes edge p1 p2 h = (Ok true, h') /\ consistent h' /\ counts h h' 2 6 4 /\
      patched h h' (mkPatch [f1; f2] [edge] [(n4, p1); (n5, p2)]
        [(e1, (n1, n4)); (e2, (n2, n5)); (e3, (n4, n5)); (e4, (n3, n4)); (e5, (n3, n5)); (e6, (n4, n6)); (e7, (n5, n6))]
        [(g1, (n1, n3, n4), f1); (g2, (n3, n4, n5), f1); (g3, (n2, n3, n5), f1);
         (g4, (n1, n4, n6), f2); (g5, (n4, n5, n6), f2); (g6, (n2, n5, n6), f2)]).
  Proof.
    intros h edge f1 f2 p1 p2 n1 n2 Co Nd He Ef En Hp1 Hp2 Hne Hz. pose proof Co as (T & _).
    destruct (t_edge_faces h T edge He) as (_ & Nf & If). rewrite Ef in Nf, If.
    destruct (cut_inner_two_ok h edge f1 f2 p1 p2 n1 n2 Co He Ef En Hp1 Hp2 Hne) as
      (h' & n3 & n6 & n4 & n5 & e1 & e2 & e3 & e4 & e5 & e6 & e7 & g1 & g2 & g3 & g4 & g5 & g6 &
       H1 & H2 & H3 & H4 & H5 & H6 & H7 & E & Co' & Pa); auto.
    exists h', n3, n6, n4, n5, e1, e2, e3, e4, e5, e6, e7, g1, g2, g3, g4, g5, g6. repeat (split; [assumption|]). split; [|auto].
    by_counts T Pa; auto; repeat constructor; intros [].
  Qed.

  Lemma max_edge_longest : order_ok -> forall h f, topo_ok h -> In f (g_faces h) ->
    exists e, max_edge_from_face f h = (Ok e, h) /\ longest h f e.
  Proof.
    intros O h f T Hf. destruct (max_edge_run h f T Hf) as (e & E & He). exists e. split; auto. split; auto.
    pose proof E as E'. unfold max_edge_from_face in E'. destruct (t_face_edges h T f Hf) as (L & _ & Hi).
    destruct (f_edges h f) as [|e0 es] eqn:Ee; [discriminate L|].
    destruct (len_edge h e0) as [l0|] eqn:L0; [|discriminate E']. cbn in E'. injection E' as E'.
    destruct (max_edge_loop_max O h es e0 l0 e L0 E') as (l & K1 & K2 & K3).
    unfold len_edge in K1 at 1. destruct (e_nodes h e) as [|a [|b [|c r]]]; try discriminate K1. injection K1 as K1.
    exists a, b. split; auto. intros e' a' b' [<-|He'] En.
    - unfold len_edge in L0. rewrite En in L0. injection L0 as L0. rewrite K1, L0. auto.
    - rewrite K1. apply (K3 e'); auto. unfold len_edge. rewrite En. auto.
  Qed.

  Theorem flip_main : order_ok -> forall h face, consistent h -> no_double_faces h -> In face (g_faces h) ->
    exists edge, longest h face edge /\
      (length (e_faces h edge) <> 2 -> collapse_face face h = (Ok false, h)) /\
      (forall other, other <> face -> In other (e_faces h edge) -> f_zone h other = f_zone h face ->
       free_diagonal h edge ->
       exists h' n1 n2 n3 n4 e g1 g2, e_nodes h edge = [n1; n2] /\
         Permutation (f_nodes h face) [n1; n2; n3] /\ Permutation (f_nodes h other) [n1; n2; n4] /\
         collapse_face face h = (Ok true, h') /\ consistent h' /\ counts h h' 0 0 0 /\
         patched h h' (mkPatch [face; other] [edge] [] [(e, (n3, n4))]
           [(g1, (n1, n3, n4), face); (g2, (n2, n3, n4), face)])).
  Proof.
    intros O h face Co Nd Hf. pose proof Co as (T & ZO & _). destruct (max_edge_longest O h face T Hf) as (edge & Mx & Lg).
    exists edge. split; auto. split; [intros L; apply (collapse_face_no h face edge Mx L)|].
    intros other Do Ho Hz Fd. destruct Lg as [Ie _].
    assert (He : In edge (g_edges h)) by (apply (t_face_edges h T face Hf); auto).
    destruct (ends_of h edge T He) as (n1 & n2 & En & D12).
    assert (Fe : In face (e_faces h edge)) by (apply (t_ef h T); auto).
    assert (Ef : Permutation (e_faces h edge) [face; other]).
    { destruct (faces_of h edge T He) as [(g & Ef)|(g & k & Ef & D)]; rewrite Ef in *.
      - destruct Fe as [<-|[]]. destruct Ho as [<-|[]]. congruence.
      - destruct Fe as [<-|[<-|[]]]; destruct Ho as [<-|[<-|[]]]; try congruence; constructor; auto. }
    assert (Hg : In other (g_faces h)) by (apply (t_edge_faces h T edge He); auto).
    destruct (face_at h edge face n1 n2 T ZO He Fe En) as (n3 & a1 & a2 & z1 & B1).
    destruct (face_at h edge other n1 n2 T ZO He Ho En) as (n4 & b1 & b2 & z2 & B2).
    pose proof (bs_nd _ _ _ _ _ _ _ _ _ B1) as N1. apply NoDup3 in N1 as (_ & D13 & D23).
    pose proof (bs_nd _ _ _ _ _ _ _ _ _ B2) as N2. apply NoDup3 in N2 as (_ & D14 & D24).
    pose proof (bs_fn _ _ _ _ _ _ _ _ _ B1) as P1. pose proof (bs_fn _ _ _ _ _ _ _ _ _ B2) as P2.
    assert (I3 : In n3 (f_nodes h face)) by (apply (Permutation_in _ (Permutation_sym P1)); cbn; auto).
    assert (I4 : In n4 (f_nodes h other)) by (apply (Permutation_in _ (Permutation_sym P2)); cbn; auto).
    assert (D34 : n3 <> n4).
    { intros ->. apply Do. symmetry. apply Nd; auto. intros x Hx. apply (Permutation_in _ (Permutation_sym P2)).
      exact (Permutation_in _ P1 Hx). }
    destruct (collapse_face_flip h face edge other n1 n2 n3 n4 Co Hf Mx Ef En (eq_sym Hz) I3) as (h' & d & g1 & g2 & E & Co' & Pa); auto.
    { intros d Hd. apply (Fd face other n3 n4 d); auto; rewrite En; cbn; intuition congruence. }
    exists h', n1, n2, n3, n4, d, g1, g2. repeat (split; [assumption|]). split; [|auto].
    by_counts T Pa; repeat constructor; cbn; intuition congruence.
  Qed.

  (** A loaded grid is consistent. *)
  Lemma loaded_consistent : forall text h h' evs, load true text h = (Ok tt, h') ->
    file_form [] (file_lines text) evs -> no_degenerate (zones_of evs) -> consistent h'.
  Proof.
    intros text h h' evs E Ff Nd. destruct (loaded_good text h h' evs E Ff Nd) as ((T & Z) & ZL & Nu & Me).
    unfold consistent. auto.
  Qed.

  Theorem sequence_main : forall text h h' evs l, load true text h = (Ok tt, h') ->
    file_form [] (file_lines text) evs -> no_degenerate (zones_of evs) -> no_double_faces h' -> all_allowed h' l ->
    exists h'', perform_all l h' = (Ok tt, h'') /\ consistent h'' /\ no_double_faces h''.
  Proof.
    intros text h h' evs l E Ff Nd Dd Al. apply acts_ok; auto. eapply loaded_consistent; eauto.
  Qed.
End Final.

(** ** Counterexamples *)

Lemma perm_lost : forall (l : list Z) x n, In x l -> (x >= Z.of_nat n)%Z -> ~ Permutation l (map Z.of_nat (seq 0 n)).
Proof.
  intros l x n Hx Hn P. apply (Permutation_in _ P) in Hx. apply in_map_iff in Hx as (i & <- & Hi). apply in_seq in Hi. lia.
Qed.


Lemma ok_state : forall {A S} (m : res A * S) (a : A), fst m = Ok a -> m = (Ok a, snd m).
Proof. intros A S [r s] a E. cbn in *. congruence. Qed.

Lemma zone_misses : forall {F : FloatOps} (h : heap) z n f, In z (g_zones h) -> In n (g_nodes h) -> In f (n_faces h n) ->
  f_zone h f = Some z -> ~ In n (z_nodes h z) -> ~ zone_lists_ok h.
Proof.
  intros F h z n f Hz Hn Hf Ez Hno K. destruct (K z Hz) as [K1 _]. apply Hno.
  apply (DecompProofs.sublist_In _ _ _ _ n K1). split; auto. exists f. auto.
Qed.

Lemma two_joins : forall {F : FloatOps} (h : heap) e1 e2, In e1 (g_edges h) -> In e2 (g_edges h) -> e1 <> e2 ->
  e_nodes h e1 = e_nodes h e2 -> ~ topo_ok h.
Proof. intros F h e1 e2 H1 H2 D E T. apply D. apply (t_uniq h T); auto. rewrite E. intros x Hx. exact Hx. Qed.

Lemma in_b : forall x l, existsb (Nat.eqb x) l = true -> In x l.
Proof. intros x l H. apply existsb_exists in H as (y & Hy & E). apply Nat.eqb_eq in E as ->. auto. Qed.

Lemma not_in_b : forall x l, existsb (Nat.eqb x) l = false -> ~ In x l.
Proof.
  intros x l H K. enough (existsb (Nat.eqb x) l = true) by congruence. apply existsb_exists. exists x.
  split; auto. apply Nat.eqb_refl.
Qed.

Ltac mem := first [apply in_b|apply not_in_b]; vm_compute; reflexivity.

(** [cut_edge] on an edge between two zones: a face cut from the second face is in the
    zone of the first one. *)
Lemma cut_cross_zone : exists (F : FloatOps) h edge f1 f2 p, consistent h /\ no_double_faces h /\
  In edge (g_edges h) /\ e_faces h edge = [f1; f2] /\ f_zone h f1 <> f_zone h f2 /\ new_point h p /\
  exists h' g x, cut_edge edge p h = (Ok true, h') /\ ~ zone_lists_ok h' /\
    In g (g_faces h') /\ ~ In g (g_faces h) /\ In x (f_nodes h' g) /\ In x (f_nodes h f2) /\ ~ In x (f_nodes h f1) /\
    f_zone h' g = f_zone h f1.
Proof.
  exists ZOps, wheel, 0, 0, 5, (1, 1, 1)%Z. split; [exact wheel_ok|]. split; [exact wheel_single|].
  split; [mem|]. split; [vm_compute; reflexivity|]. split; [vm_compute; discriminate|].
  split; [apply new_pointb_ok; vm_compute; reflexivity|].
  assert (E : fst (cut_edge (F := ZOps) 0 (1, 1, 1)%Z wheel) = Ok true) by (vm_compute; reflexivity).
  exists (snd (cut_edge (F := ZOps) 0 (1, 1, 1)%Z wheel)), 9, 6. split; [apply ok_state; exact E|].
  split; [apply (zone_misses _ 0 6 9); [mem|mem|mem|vm_compute; reflexivity|mem]|].
  split; [mem|]. split; [mem|].
  split; [mem|]. split; [mem|].
  split; [mem|]. vm_compute. reflexivity.
Qed.

Lemma two_cross_zone : exists (F : FloatOps) h edge f1 f2 p q, consistent h /\ no_double_faces h /\
  In edge (g_edges h) /\ e_faces h edge = [f1; f2] /\ f_zone h f1 <> f_zone h f2 /\ new_point h p /\ new_point h q /\
  rnd p <> rnd q /\
  exists h' g x, cut_edge_with_two_nodes edge p q h = (Ok true, h') /\ ~ zone_lists_ok h' /\
    In g (g_faces h') /\ ~ In g (g_faces h) /\ In x (f_nodes h' g) /\ In x (f_nodes h f2) /\ ~ In x (f_nodes h f1) /\
    f_zone h' g = f_zone h f1.
Proof.
  exists ZOps, wheel, 0, 0, 5, (1, 1, 1)%Z, (2, 2, 2)%Z. split; [exact wheel_ok|]. split; [exact wheel_single|].
  split; [mem|]. split; [vm_compute; reflexivity|]. split; [vm_compute; discriminate|].
  split; [apply new_pointb_ok; vm_compute; reflexivity|]. split; [apply new_pointb_ok; vm_compute; reflexivity|].
  split; [vm_compute; discriminate|].
  assert (E : fst (cut_edge_with_two_nodes (F := ZOps) 0 (1, 1, 1)%Z (2, 2, 2)%Z wheel) = Ok true) by (vm_compute; reflexivity).
  exists (snd (cut_edge_with_two_nodes (F := ZOps) 0 (1, 1, 1)%Z (2, 2, 2)%Z wheel)), 11, 6. split; [apply ok_state; exact E|].
  split; [apply (zone_misses _ 0 6 11); [mem|mem|mem|vm_compute; reflexivity|mem]|].
  split; [mem|]. split; [mem|].
  split; [mem|]. split; [mem|].
  split; [mem|]. vm_compute. reflexivity.
Qed.

(** Two faces with the same corners: two edges join the same nodes afterwards. *)
Lemma cut_double : exists (F : FloatOps) h edge p, consistent h /\ In edge (g_edges h) /\ new_point h p /\
  one_zone h edge /\ length (e_faces h edge) = 2 /\
  exists h' e1 e2, cut_edge edge p h = (Ok true, h') /\ In e1 (g_edges h') /\ In e2 (g_edges h') /\ e1 <> e2 /\
    e_nodes h' e1 = e_nodes h' e2.
Proof.
  exists ZOps, pillow, 0, (1, 1, 1)%Z. split; [exact pillow_ok|]. split; [mem|].
  split; [apply new_pointb_ok; vm_compute; reflexivity|].
  split. { intros f g Hf Hg. vm_compute in Hf, Hg. destruct Hf as [<-|[<-|[]]], Hg as [<-|[<-|[]]]; reflexivity. }
  split; [vm_compute; reflexivity|].
  assert (E : fst (cut_edge (F := ZOps) 0 (1, 1, 1)%Z pillow) = Ok true) by (vm_compute; reflexivity).
  exists (snd (cut_edge (F := ZOps) 0 (1, 1, 1)%Z pillow)), 5, 6. split; [apply ok_state; exact E|].
  split; [mem|]. split; [mem|].
  split; [discriminate|]. vm_compute. reflexivity.
Qed.

(** The other diagonal exists already: two edges join the same nodes afterwards. *)
Lemma flip_double : exists (F : FloatOps) h face, @order_ok F /\ consistent h /\ no_double_faces h /\ In face (g_faces h) /\
  exists h' e1 e2, collapse_face face h = (Ok true, h') /\ In e1 (g_edges h') /\ In e2 (g_edges h') /\ e1 <> e2 /\
    e_nodes h' e1 = e_nodes h' e2.
Proof.
  exists ZOps, tetra, 0. split; [exact Zorder_ok|]. split; [exact tetra_ok|]. split; [exact tetra_single|].
  split; [mem|].
  assert (E : fst (collapse_face (F := ZOps) 0 tetra) = Ok true) by (vm_compute; reflexivity).
  exists (snd (collapse_face (F := ZOps) 0 tetra)), 4, 6. split; [apply ok_state; exact E|].
  split; [mem|]. split; [mem|].
  split; [discriminate|]. vm_compute. reflexivity.
Qed.

(** [collapse_edge] on an inner edge leaves a number that is too big. *)
Lemma collapse_numbers : exists (F : FloatOps) h edge, consistent h /\ no_double_faces h /\ In edge (g_edges h) /\
  length (e_faces h edge) = 2 /\
  exists h' f, collapse_edge edge h = (Ok true, h') /\ In f (g_faces h') /\ (f_glo h' f >= Z.of_nat (length (g_faces h')))%Z.
Proof.
  exists ZOps, wheel2, 2. split; [exact wheel2_ok|]. split; [exact wheel2_single|].
  split; [mem|]. split; [vm_compute; reflexivity|].
  assert (E : fst (collapse_edge (F := ZOps) 2 wheel2) = Ok true) by (vm_compute; reflexivity).
  exists (snd (collapse_edge (F := ZOps) 2 wheel2)), 3. split; [apply ok_state; exact E|].
  split; [mem|]. vm_compute. discriminate.
Qed.

Lemma collapse_numbers_not : forall {F : FloatOps} (h : heap) f, In f (g_faces h) ->
  (f_glo h f >= Z.of_nat (length (g_faces h)))%Z -> ~ numbered h.
Proof.
  intros F h f Hf Hg (_ & _ & P). revert P. apply (perm_lost _ (f_glo h f)); auto. apply in_map. auto.
Qed.

Lemma collapse_raises : exists (F : FloatOps) h edge, consistent h /\ no_double_faces h /\ In edge (g_edges h) /\
  length (e_faces h edge) = 2 /\ fst (collapse_edge edge h) = Raise EIndexError.
Proof.
  exists ZOps, wheel, 2. split; [exact wheel_ok|]. split; [exact wheel_single|].
  split; [mem|]. split; [vm_compute; reflexivity|]. vm_compute. reflexivity.
Qed.

(** The number of border nodes is not reset by load. *)
Lemma mark_after_load : exists (F : FloatOps) text h0 h1 h2 h3,
  load true text empty_heap = (Ok tt, h0) /\ mark_all_fixed_nodes h0 = (Ok tt, h1) /\
  load true text h1 = (Ok tt, h2) /\ mark_all_fixed_nodes h2 = (Ok tt, h3) /\
  consistent h3 /\ g_nborder h3 <> length (filter (n_border h3) (g_nodes h3)).
Proof.
  exists ZOps, two_zones, plate, (snd (mark_all_fixed_nodes plate)), (snd (load true two_zones (snd (mark_all_fixed_nodes plate)))),
    (snd (mark_all_fixed_nodes (snd (load true two_zones (snd (mark_all_fixed_nodes plate)))))).
  assert (E1 : fst (mark_all_fixed_nodes plate) = Ok tt) by (vm_compute; reflexivity).
  assert (E2 : fst (load true two_zones (snd (mark_all_fixed_nodes plate))) = Ok tt) by (vm_compute; reflexivity).
  assert (E3 : fst (mark_all_fixed_nodes (snd (load true two_zones (snd (mark_all_fixed_nodes plate))))) = Ok tt) by (vm_compute; reflexivity).
  split; [exact plate_run|]. split; [exact (ok_state _ _ E1)|]. split; [exact (ok_state _ _ E2)|]. split; [exact (ok_state _ _ E3)|].
  split; [apply consistentb_ok; vm_compute; reflexivity|].
  vm_compute. discriminate.
Qed.

(** ** A decision procedure for the examples about sequences *)

Section Allow.
  Context {F : FloatOps}.

  Definition one_zoneb (h : heap) (e : nat) : bool :=
    forallb (fun f => forallb (fun g => ozone_eqb (f_zone h f) (f_zone h g)) (e_faces h e)) (e_faces h e).

  Definition inb (x : nat) (l : list nat) : bool := existsb (Nat.eqb x) l.

  Definition free_diagonalb (h : heap) (e : nat) : bool :=
    forallb (fun f => forallb (fun g => Nat.eqb f g ||
      forallb (fun a => inb a (e_nodes h e) || forallb (fun b => inb b (e_nodes h e) ||
        forallb (fun d => negb (inb a (e_nodes h d) && inb b (e_nodes h d))) (g_edges h))
        (f_nodes h g)) (f_nodes h f)) (e_faces h e)) (e_faces h e).

  Definition allowedb (h : heap) (a : action) : bool :=
    match a with
    | ADecompMono _ | AMark => true
    | ADecompRandom _ count _ | ADecompLinear count _ => negb (Nat.eqb count 0)
    | ADecompFarhat count _ _ => negb (Nat.eqb count 0) && negb (Nat.eqb (length (g_faces h)) 0)
    | ADecompHier _ _ _ _ _ => false
    | ADivide f p => inb f (g_faces h) && new_pointb h p
    | ASingle e p => inb e (g_edges h) && new_pointb h p
    | ACut e p => inb e (g_edges h) && new_pointb h p && one_zoneb h e
    | ATwo e p q => inb e (g_edges h) && new_pointb h p && new_pointb h q && negb (rc_eqb (rnd p) (rnd q)) && one_zoneb h e
    | AFlip f => inb f (g_faces h) && forallb (fun e => one_zoneb h e && free_diagonalb h e) (f_edges h f)
    | ACollapse e => inb e (g_edges h) && negb (Nat.eqb (length (e_faces h e)) 2)
    end.

  Fixpoint all_allowedb (h : heap) (l : list action) : bool :=
    match l with [] => true | a :: r => allowedb h a && all_allowedb (snd (perform a h)) r end.

  Lemma inb_ok : forall x l, inb x l = true <-> In x l.
  Proof.
    intros x l. split; [apply in_b|]. intros H. apply existsb_exists. exists x. split; auto. apply Nat.eqb_refl.
  Qed.

  Lemma one_zoneb_ok : forall h e, one_zoneb h e = true -> one_zone h e.
  Proof.
    intros h e H f g Hf Hg. unfold one_zoneb in H. rewrite forallb_forall in H. specialize (H f Hf).
    rewrite forallb_forall in H. specialize (H g Hg). destruct (f_zone h f) as [x|], (f_zone h g) as [y|]; try discriminate; auto.
    cbn in H. apply Nat.eqb_eq in H. congruence.
  Qed.

  Lemma free_diagonalb_ok : forall h e, free_diagonalb h e = true -> free_diagonal h e.
  Proof.
    intros h e H f g a b d Hf Hg D Ha Na Hb Nb Hd [K1 K2]. unfold free_diagonalb in H.
    rewrite forallb_forall in H. specialize (H f Hf). rewrite forallb_forall in H. specialize (H g Hg).
    apply orb_true_iff in H as [H|H]; [apply Nat.eqb_eq in H; congruence|].
    rewrite forallb_forall in H. specialize (H a Ha). apply orb_true_iff in H as [H|H]; [apply inb_ok in H; auto|].
    rewrite forallb_forall in H. specialize (H b Hb). apply orb_true_iff in H as [H|H]; [apply inb_ok in H; auto|].
    rewrite forallb_forall in H. specialize (H d Hd). apply inb_ok in K1, K2. rewrite K1, K2 in H. discriminate.
  Qed.

  Lemma allowedb_ok : forall h a, allowedb h a = true -> allowed h a.
  Proof.
    intros h a H. destruct a; cbn in *; auto; repeat (apply andb_true_iff in H as [H ?]).
    - apply negb_true_iff, Nat.eqb_neq in H. auto.
    - apply negb_true_iff, Nat.eqb_neq in H. auto.
    - apply negb_true_iff, Nat.eqb_neq in H, H0. split; auto. intros E. rewrite E in H0. auto.
    - discriminate.
    - split; [apply inb_ok|apply new_pointb_ok]; auto.
    - split; [apply inb_ok|apply new_pointb_ok]; auto.
    - split; [apply inb_ok; auto|]. split; [apply new_pointb_ok|apply one_zoneb_ok]; auto.
    - split; [apply inb_ok; auto|]. split; [apply new_pointb_ok; auto|]. split; [apply new_pointb_ok; auto|].
      split; [|apply one_zoneb_ok; auto]. intros E. apply rc_eqb_iff in E. rewrite E in H1. discriminate.
    - split; [apply inb_ok; auto|]. intros e He. rewrite forallb_forall in H0. specialize (H0 e He).
      apply andb_true_iff in H0 as [? ?]. split; [apply one_zoneb_ok|apply free_diagonalb_ok]; auto.
    - split; [apply inb_ok; auto|]. intros f1 f2 E. rewrite E in H0. discriminate H0.
  Qed.

  Lemma all_allowedb_ok : forall l h, all_allowedb h l = true -> all_allowed h l.
  Proof.
    induction l as [|a l IH]; intros h H; cbn in *; auto. apply andb_true_iff in H as [H1 H2]. split; [apply allowedb_ok; auto|].
    intros h' E. apply IH. rewrite E in H2. auto.
  Qed.
End Allow.
