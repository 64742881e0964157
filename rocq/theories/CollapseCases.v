(** A grid and an edge of it that can be contracted. *)

From Coq Require Import ZArith NArith Ascii String Bool Lia List Permutation.
From Verif Require Import Py PyLemmas Heap HeapLemmas GridModel GridSpec Atomic AtomicSpec AtomicActs AtomicFinal Samples SamplesAtomic CollapseSpec CollapseTopo.
Import ListNotations.
Open Scope list_scope.
Open Scope nat_scope.

Section Split.
  Context {F : FloatOps}.

  Theorem collapse_numbers_iff : forall h edge f1 f2 n1 n2 n3 n4 h',
    consistent h -> no_double_faces h -> NoDup (g_bag h) -> In edge (g_edges h) ->
    e_faces h edge = [f1; f2] -> e_nodes h edge = [n1; n2] ->
    In n3 (f_nodes h f1) -> n3 <> n1 -> n3 <> n2 -> In n4 (f_nodes h f2) -> n4 <> n1 -> n4 <> n2 ->
    contractible h f1 f2 n1 n2 n3 n4 -> collapse_edge edge h = (Ok true, h') ->
    (consistent h' <-> greatest_last (n_glo h) (g_nodes h') 1 (length (g_nodes h)) /\
      greatest_last (e_glo h) (g_edges h') 3 (length (g_edges h)) /\
      greatest_last (f_glo h) (g_faces h') 2 (length (g_faces h))).
  Proof.
    intros h edge f1 f2 n1 n2 n3 n4 h' Co Nd Bn He Ef En A1 A2 A3 A4 A5 A6 Ct Run.
    destruct (collapse_main h edge f1 f2 n1 n2 n3 n4 Co Nd Bn He Ef En A1 A2 A3 A4 A5 A6 Ct)
      as (h2 & e1 & e2 & _ & _ & _ & _ & Run2 & _ & T & Z & L & M & _ & _ & N).
    assert (E : h' = h2) by (rewrite Run2 in Run; apply (f_equal snd) in Run; symmetry; exact Run). subst h2.
    rewrite <- N. unfold consistent. tauto.
  Qed.

  Theorem collapse_shape : forall h edge f1 f2 n1 n2 n3 n4,
    consistent h -> no_double_faces h -> NoDup (g_bag h) -> In edge (g_edges h) ->
    e_faces h edge = [f1; f2] -> e_nodes h edge = [n1; n2] ->
    In n3 (f_nodes h f1) -> n3 <> n1 -> n3 <> n2 -> In n4 (f_nodes h f2) -> n4 <> n1 -> n4 <> n2 ->
    contractible h f1 f2 n1 n2 n3 n4 ->
    exists h' e1 e2, In e1 (g_edges h) /\ Permutation (e_nodes h e1) [n2; n3] /\
      In e2 (g_edges h) /\ Permutation (e_nodes h e2) [n2; n4] /\
      collapse_edge edge h = (Ok true, h') /\ contracted h h' edge e1 e2 f1 f2 n1 n2 /\
      topo_ok h' /\ zones_ok h' /\ zone_lists_ok h' /\ nodes_merged h' /\ no_double_faces h' /\
      counts h' h 1 3 2.
  Proof.
    intros h edge f1 f2 n1 n2 n3 n4 Co Nd Bn He Ef En A1 A2 A3 A4 A5 A6 Ct.
    destruct (collapse_main h edge f1 f2 n1 n2 n3 n4 Co Nd Bn He Ef En A1 A2 A3 A4 A5 A6 Ct)
      as (h2 & e1 & e2 & K). exists h2, e1, e2. tauto.
  Qed.
End Split.

Definition memb (x : nat) (l : list nat) : bool := existsb (Nat.eqb x) l.
Lemma memb_ok : forall x l, memb x l = true <-> In x l.
Proof.
  intros x l. unfold memb. rewrite existsb_exists. split.
  - intros (y & H & E). apply Nat.eqb_eq in E. subst. auto.
  - intros H. exists x. split; auto. apply Nat.eqb_refl.
Qed.

Lemma w_edge : e_faces wheel2 1 = [0; 1] /\ e_nodes wheel2 1 = [2; 0] /\ f_nodes wheel2 0 = [1; 2; 0] /\ f_nodes wheel2 1 = [2; 3; 0].
Proof. vm_compute. auto. Qed.

Lemma w_in : In 1 (g_edges wheel2).
Proof. vm_compute. auto. Qed.

Lemma w_bag : NoDup (g_bag wheel2).
Proof. apply rc_nodupb_ok. vm_compute. reflexivity. Qed.

(** The neighbours of a node, from the list of ends. *)
Lemma joined_in : forall h a b, @joined ZOps h a b -> In [a; b] (map (e_nodes h) (g_edges h)) \/ In [b; a] (map (e_nodes h) (g_edges h)).
Proof.
  intros h a b (e & He & P). apply Permutation_sym, Permutation_length_2_inv in P.
  destruct P as [P|P]; [left|right]; apply in_map_iff; exists e; auto.
Qed.

Lemma w_ends : map (e_nodes wheel2) (g_edges wheel2) =
  [[1; 2]; [2; 0]; [1; 0]; [2; 3]; [3; 0]; [3; 4]; [4; 0]; [4; 5]; [5; 0]; [5; 6]; [6; 0]; [6; 1]].
Proof. vm_compute. reflexivity. Qed.

Lemma w_faces : g_faces wheel2 = [0; 1; 2; 3; 4; 5] /\
  (forall g, In g (g_faces wheel2) -> f_zone wheel2 g = f_zone wheel2 0) /\
  f_nodes wheel2 0 = [1; 2; 0] /\ f_nodes wheel2 1 = [2; 3; 0] /\ f_nodes wheel2 2 = [3; 4; 0] /\
  f_nodes wheel2 3 = [4; 5; 0] /\ f_nodes wheel2 4 = [5; 6; 0] /\ f_nodes wheel2 5 = [6; 1; 0].
Proof.
  split; [vm_compute; reflexivity|]. split; [|vm_compute; repeat split].
  assert (E : forallb (fun g => match f_zone wheel2 g, f_zone wheel2 0 with Some a, Some b => Nat.eqb a b | _, _ => false end) (g_faces wheel2) = true)
    by (vm_compute; reflexivity).
  rewrite forallb_forall in E. intros g Hg. specialize (E g Hg). cbv beta in E.
  destruct (f_zone wheel2 g); [|discriminate E]. destruct (f_zone wheel2 0); [|discriminate E]. apply Nat.eqb_eq in E. congruence.
Qed.

Definition ends2 : list (list nat) := [[1; 2]; [2; 0]; [1; 0]; [2; 3]; [3; 0]; [3; 4]; [4; 0]; [4; 5]; [5; 0]; [5; 6]; [6; 0]; [6; 1]].
Lemma w_link : forall m, In [2; m] ends2 \/ In [m; 2] ends2 -> In [0; m] ends2 \/ In [m; 0] ends2 -> m = 1 \/ m = 3.
Proof.
  intros m J1 J2. assert (A : m < 4).
  { unfold ends2 in J1. cbn in J1. destruct J1 as [J1|J1]; decompose [or] J1; try contradiction; try discriminate;
      match goal with H : _ = _ :> list nat |- _ => apply (f_equal (fun l => nth 0 l 0 + nth 1 l 0)) in H; cbn in H; lia end. }
  destruct m as [|[|[|[|m]]]]; auto; try lia.
  - exfalso. unfold ends2 in J2. cbn in J2. destruct J2 as [J|J]; decompose [or] J; try contradiction; discriminate.
  - exfalso. unfold ends2 in J1. cbn in J1. destruct J1 as [J|J]; decompose [or] J; try contradiction; discriminate.
Qed.

Lemma w_tent : forall fn : nat -> list nat, fn 0 = [1; 2; 0] -> fn 1 = [2; 3; 0] -> fn 2 = [3; 4; 0] ->
  fn 3 = [4; 5; 0] -> fn 4 = [5; 6; 0] -> fn 5 = [6; 1; 0] ->
  forall f, In f [0; 1; 2; 3; 4; 5] -> In 1 (fn f) -> In 3 (fn f) -> False.
Proof.
  intros fn F0 F1 F2 F3 F4 F5 f Hf A B. cbn in Hf.
  decompose [or] Hf; try contradiction; subst f; rewrite ?F0, ?F1, ?F2, ?F3, ?F4, ?F5 in A, B; cbn in A, B; lia.
Qed.

Lemma w_point : forallb (fun n => Nat.eqb n 2 || negb (rc_eqb (n_rc wheel2 n) (@rnd ZOps (vmid (n_p wheel2 2) (n_p wheel2 0))))) (g_nodes wheel2) = true.
Proof. vm_compute. reflexivity. Qed.

Definition w2 : @heap ZOps := snd (collapse_edge (F := ZOps) 1 wheel2).
Lemma w2_run : collapse_edge (F := ZOps) 1 wheel2 = (Ok true, w2).
Proof.
  assert (E : fst (collapse_edge (F := ZOps) 1 wheel2) = Ok true) by (vm_compute; reflexivity).
  unfold w2. destruct (collapse_edge (F := ZOps) 1 wheel2) as [r s]. cbn in E |- *. rewrite E. auto.
Qed.
Lemma w2_lists : g_nodes w2 = [1; 2; 3; 4; 5; 6] /\ g_edges w2 = [0; 3; 5; 6; 7; 8; 9; 10; 11] /\ g_faces w2 = [2; 3; 4; 5] /\
  map (f_nodes w2) [2; 3; 4; 5] = [[3; 4; 2]; [4; 5; 2]; [5; 6; 2]; [6; 1; 2]] /\ n_p w2 2 = (10, 20, 2)%Z.
Proof. vm_compute. auto. Qed.
Lemma w_numbers : map (n_glo wheel2) [6] = [6%Z] /\ map (e_glo wheel2) [9; 10; 11] = [9; 10; 11]%Z /\ map (f_glo wheel2) [4; 5] = [4; 5]%Z /\
  length (g_nodes wheel2) = 7 /\ length (g_edges wheel2) = 12 /\ length (g_faces wheel2) = 6.
Proof. vm_compute. repeat split. Qed.
Lemma w2_more : all_allowedb (F := ZOps) w2 [AMark; ADivide 3 (-20, 7, 1)%Z; ADecompLinear 2 None] = true.
Proof. vm_compute. reflexivity. Qed.

Opaque wheel2 w2.

Lemma w_contractible : contractible wheel2 0 1 2 0 1 3.
Proof.
  destruct w_faces as (Gf & Zf & F0 & F1 & F2 & F3 & F4 & F5). constructor.
  - intros m J1 J2. apply joined_in in J1. apply joined_in in J2. rewrite w_ends in J1, J2.
    exact (w_link m J1 J2).
  - intros f g Hf Hg P _. rewrite Gf in Hf.
    assert (A : In 1 (f_nodes wheel2 f) /\ In 3 (f_nodes wheel2 f)).
    { split; apply (Permutation_in _ (Permutation_sym P)); cbn; auto. }
    exact (w_tent _ F0 F1 F2 F3 F4 F5 f Hf (proj1 A) (proj2 A)).
  - exists 5. rewrite Gf, F5. clear. cbn. lia.
  - exists 2. rewrite Gf, F2. clear. cbn. lia.
  - exists 3. rewrite Gf, F3. clear. cbn. lia.
  - intros g Hg _. apply Zf; auto.
  - pose proof w_point as E. rewrite forallb_forall in E. intros n Hn Dn K. specialize (E n Hn). cbv beta in E. apply Nat.eqb_neq in Dn.
    rewrite Dn, K in E. cbn [orb] in E. assert (R := proj2 (CollapseNode.rc_eqb_eq (@rnd ZOps (vmid (n_p wheel2 2) (n_p wheel2 0))) _) eq_refl). rewrite R in E. discriminate E.
  - rewrite Gf. clear. cbn. lia.
Qed.

Lemma w2_greatest : greatest_last (n_glo wheel2) (g_nodes w2) 1 (length (g_nodes wheel2)) /\
  greatest_last (e_glo wheel2) (g_edges w2) 3 (length (g_edges wheel2)) /\
  greatest_last (f_glo wheel2) (g_faces w2) 2 (length (g_faces wheel2)).
Proof.
  destruct w2_lists as (L1 & L2 & L3 & _). destruct w_numbers as (N1 & N2 & N3 & K1 & K2 & K3). rewrite L1, L2, L3, K1, K2, K3.
  split; [exists [1; 2; 3; 4; 5], [6]; rewrite N1; repeat split; auto|].
  split; [exists [0; 3; 5; 6; 7; 8], [9; 10; 11]; rewrite N2; repeat split; auto|].
  exists [2; 3], [4; 5]; rewrite N3; repeat split; auto.
Qed.

Lemma w_can : can_collapse wheel2 1 0 1.
Proof.
  destruct w_edge as (E1 & E2 & E3 & E4).
  assert (In 1 (f_nodes wheel2 0)) as A1 by (rewrite E3; left; reflexivity).
  assert (In 3 (f_nodes wheel2 1)) as A2 by (rewrite E4; right; left; reflexivity).
  destruct (collapse_main wheel2 1 0 1 2 0 1 3 wheel2_ok wheel2_single w_bag w_in E1 E2 A1 ltac:(discriminate) ltac:(discriminate) A2
    ltac:(discriminate) ltac:(discriminate) w_contractible) as (h2 & e1 & e2 & K1 & K2 & K3 & K4 & Run & Cc & _).
  assert (E : w2 = h2) by (pose proof w2_run as R; rewrite Run in R; apply (f_equal snd) in R; symmetry; exact R).
  rewrite <- E in Cc. destruct w2_greatest as (G1 & G2 & G3).
  split; [exact w_bag|]. exists 2, 0, 1, 3, e1, e2, (g_nodes w2), (g_edges w2), (g_faces w2).
  split; [exact E2|]. split; [exact A1|]. split; [discriminate|]. split; [discriminate|]. split; [exact A2|]. split; [discriminate|].
  split; [discriminate|]. split; [exact w_contractible|]. split; [exact K1|]. split; [exact K2|]. split; [exact K3|]. split; [exact K4|].
  split; [exact (ct_nodes _ _ _ _ _ _ _ _ _ Cc)|]. split; [exact G1|]. split; [exact (ct_edges _ _ _ _ _ _ _ _ _ Cc)|]. split; [exact G2|].
  split; [exact (ct_faces _ _ _ _ _ _ _ _ _ Cc)|exact G3].
Qed.

Lemma w_all : all_allowed (F := ZOps) wheel2 [ACollapse 1; AMark; ADivide 3 (-20, 7, 1)%Z; ADecompLinear 2 None].
Proof.
  split.
  - split; [exact w_in|]. destruct w_edge as (E1 & _). intros f1 f2 E. rewrite E1 in E. injection E as <- <-. exact w_can.
  - intros h' R. assert (E : w2 = h').
    { cbn [perform] in R. rewrite (bind_run _ _ _ _ _ _ _ w2_run) in R. apply (f_equal snd) in R. exact R. }
    rewrite <- E. apply all_allowedb_ok. exact w2_more.
Qed.
