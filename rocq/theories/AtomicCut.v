(** Surroundings of an edge with two faces and its division. *)

From Coq Require Import ZArith NArith Ascii String Bool Lia List Permutation.
From Verif Require Import Py PyLemmas Heap HeapLemmas GridModel GridSpec DecompProofs LoadPlace Atomic AtomicSpec
  PatchProofs PatchRun PatchDel PatchTmpl PatchDone AtomicRun AtomicProofs.
Import ListNotations.
Open Scope list_scope.
Open Scope nat_scope.

Definition t_cut : tmpl := mkTmpl 4 1 1 5 4 2 4
  [(0, 0); (0, 1); (0, 2); (1, 0); (1, 3); (1, 4)]
  [(0, 0); (0, 1); (0, 2); (1, 0); (1, 1); (1, 3)]
  [(0, 0); (0, 1); (1, 0); (1, 2); (2, 1); (2, 2); (3, 0); (3, 3); (4, 1); (4, 3)]
  [(0, 5); (4, 5); (1, 6); (4, 6); (2, 7); (4, 7); (3, 8); (4, 8)]
  [(5, 3); (5, 4); (6, 2); (6, 5); (7, 3); (7, 2); (8, 5); (8, 4); (1, 3); (2, 2); (3, 4); (4, 5)]
  [(4, 2); (4, 3); (4, 4); (4, 5); (0, 3); (0, 4); (1, 2); (1, 5); (2, 2); (2, 3); (3, 4); (3, 5)]
  [2; 4; 3; 5].

Lemma t_cut_ok : check t_cut = true.
Proof. reflexivity. Qed.


Section Pair.
  Context {F : FloatOps}.

  (** Surroundings of an edge with two faces. *)
  Record pair_shape (h : heap) (edge f1 f2 n1 n2 n3 n4 e13 e23 e14 e24 z w : nat) : Prop := {
    ps_1 : border_shape h edge f1 n1 n2 n3 e13 e23 z;
    ps_2 : border_shape h edge f2 n1 n2 n4 e14 e24 w;
    ps_nn : NoDup [n1; n2; n3; n4];
    ps_ne : NoDup [edge; e13; e23; e14; e24];
    ps_ff : NoDup [f1; f2]
  }.

  Lemma pair_any : forall h edge f1 f2 n1 n2, topo_ok h -> zones_ok h -> In edge (g_edges h) ->
    (forall a b, a <> b -> In a [f1; f2] -> In b [f1; f2] -> ~ incl (f_nodes h a) (f_nodes h b)) ->
    Permutation (e_faces h edge) [f1; f2] -> e_nodes h edge = [n1; n2] ->
    exists n3 n4 e13 e23 e14 e24 z w, pair_shape h edge f1 f2 n1 n2 n3 n4 e13 e23 e14 e24 z w.
  Proof.
    intros h edge f1 f2 n1 n2 T ZO He Nd Ef En.
    assert (Nf : NoDup [f1; f2]). { eapply Permutation_NoDup; [exact Ef|]. apply (t_edge_faces h T); auto. }
    destruct (face_at h edge f1 n1 n2 T ZO He) as (n3 & e13 & e23 & z & B1); auto.
    { apply (Permutation_in _ (Permutation_sym Ef)). left; auto. }
    destruct (face_at h edge f2 n1 n2 T ZO He) as (n4 & e14 & e24 & z' & B2); auto.
    { apply (Permutation_in _ (Permutation_sym Ef)). right; left; auto. }
    assert (D : n3 <> n4).
    { intros ->. apply (Nd f1 f2); cbn; auto.
      - intros E. apply NoDup_cons_iff in Nf as [K _]. apply K. left. auto.
      - intros x Hx. apply (Permutation_in _ (Permutation_sym (bs_fn _ _ _ _ _ _ _ _ _ B2))).
        exact (Permutation_in _ (bs_fn _ _ _ _ _ _ _ _ _ B1) Hx). }
    pose proof (bs_nd _ _ _ _ _ _ _ _ _ B1) as N1. pose proof (bs_nd _ _ _ _ _ _ _ _ _ B2) as N2.
    apply NoDup3 in N1 as (a1 & a2 & a3). apply NoDup3 in N2 as (b1 & b2 & b3).
    pose proof (bs_ed _ _ _ _ _ _ _ _ _ B1) as M1. pose proof (bs_ed _ _ _ _ _ _ _ _ _ B2) as M2.
    apply NoDup3 in M1 as (c1 & c2 & c3). apply NoDup3 in M2 as (d1 & d2 & d3).
    pose proof (bs_e13 _ _ _ _ _ _ _ _ _ B1) as P13. pose proof (bs_e23 _ _ _ _ _ _ _ _ _ B1) as P23.
    pose proof (bs_e13 _ _ _ _ _ _ _ _ _ B2) as P14. pose proof (bs_e23 _ _ _ _ _ _ _ _ _ B2) as P24.
    assert (X : forall e e' a b c d, Permutation (e_nodes h e) [a; b] -> Permutation (e_nodes h e') [c; d] ->
      b <> c -> b <> d -> e <> e').
    { intros e e' a b c d P Q K1 K2 ->. assert (K : In b [c; d]).
      { apply (Permutation_in _ Q), (Permutation_in _ (Permutation_sym P)). right; left; auto. }
      cbn in K. intuition congruence. }
    exists n3, n4, e13, e23, e14, e24, z, z'. constructor; auto.
    - repeat constructor; cbn; intuition congruence.
    - assert (e13 <> e14) by (apply (X _ _ n1 n3 n1 n4); auto).
      assert (e13 <> e24) by (apply (X _ _ n1 n3 n2 n4); auto).
      assert (e23 <> e14) by (apply (X _ _ n2 n3 n1 n4); auto).
      assert (e23 <> e24) by (apply (X _ _ n2 n3 n2 n4); auto).
      repeat constructor; cbn; intuition congruence.
  Qed.

  Lemma pair_at : forall h edge f1 f2 n1 n2, topo_ok h -> zones_ok h -> In edge (g_edges h) ->
    (forall a b, a <> b -> In a [f1; f2] -> In b [f1; f2] -> ~ incl (f_nodes h a) (f_nodes h b)) ->
    f_zone h f1 = f_zone h f2 -> Permutation (e_faces h edge) [f1; f2] -> e_nodes h edge = [n1; n2] ->
    exists n3 n4 e13 e23 e14 e24 z, pair_shape h edge f1 f2 n1 n2 n3 n4 e13 e23 e14 e24 z z.
  Proof.
    intros h edge f1 f2 n1 n2 T ZO He Nd Fz Ef En.
    destruct (pair_any h edge f1 f2 n1 n2 T ZO He Nd Ef En) as (n3 & n4 & e13 & e23 & e14 & e24 & z & w & Ps).
    assert (E : w = z).
    { destruct Ps as [B1 B2 _ _ _].
      destruct (bs_z _ _ _ _ _ _ _ _ _ B1) as [_ Z1]. destruct (bs_z _ _ _ _ _ _ _ _ _ B2) as [_ Z2]. congruence. }
    subst w. exists n3, n4, e13, e23, e14, e24, z. exact Ps.
  Qed.

  Lemma pair_fits : forall t h edge f1 f2 n1 n2 n3 n4 e13 e23 e14 e24 z w,
    pair_shape h edge f1 f2 n1 n2 n3 n4 e13 e23 e14 e24 z w -> Permutation (e_faces h edge) [f1; f2] ->
    (kN t, kG t, kE t, kF t) = (4, 1, 5, 2) ->
    tGE t = [(0, 0); (0, 1); (0, 2); (1, 0); (1, 3); (1, 4)] ->
    tGN t = [(0, 0); (0, 1); (0, 2); (1, 0); (1, 1); (1, 3)] ->
    tEN t = [(0, 0); (0, 1); (1, 0); (1, 2); (2, 1); (2, 2); (3, 0); (3, 3); (4, 1); (4, 3)] ->
    fits t h [n1; n2; n3; n4] [edge; e13; e23; e14; e24] [f1; f2].
  Proof.
    intros t h edge f1 f2 n1 n2 n3 n4 e13 e23 e14 e24 z w [B1 B2 Nn Ne Nf] Ef K E1 E2 E3.
    injection K as K1 K2 K3 K4. destruct B1 as [(H1 & H2 & H3) (G0 & G1 & G2) Hf1 _ _ Pf1 Pe1 En P13 P23 _].
    destruct B2 as [(_ & _ & H4) (_ & G3 & G4) Hf2 _ _ Pf2 Pe2 _ P14 P24 _].
    constructor; rewrite ?K1, ?K2, ?K3, ?K4, ?E1, ?E2, ?E3; cbn.
    - auto.
    - auto.
    - repeat split; intros x Hx; cbn in Hx; intuition (subst; auto).
    - intros [|[|i]] Hi; [exact Pf1|exact Pf2|lia].
    - intros [|[|i]] Hi; [exact Pe1|exact Pe2|lia].
    - intros [|[|[|[|[|i]]]]] Hi; unfold nn, ee; cbn; try lia; auto. rewrite En. auto.
    - intros [|i] Hi; [|lia]. unfold ee. cbn. intros x Hx. apply (Permutation_in _ Ef Hx).
  Qed.

  Lemma keep_pair : forall a b : nat, keep [a; b] [a; b] = [].
  Proof. intros a b. unfold keep. cbn. rewrite !Nat.eqb_refl, orb_true_r. auto. Qed.

  Lemma len_keep2 : forall h f g, sound h -> In f (g_faces h) -> In g (g_faces h) -> f <> g ->
    S (S (length (keep [f; g] (g_faces h)))) = length (g_faces h).
  Proof.
    intros h f g (T & _) Hf Hg D. pose proof (t_faces_nd h T) as N.
    rewrite <- (keep_len1 f (g_faces h)) by auto. f_equal.
    replace (keep [f; g] (g_faces h)) with (keep [g] (keep [f] (g_faces h))).
    - rewrite (keep_len1 g (keep [f] (g_faces h))); auto.
      + apply keep_NoDup. auto.
      + apply keep_In. split; auto. intros [K|[]]; auto.
    - rewrite keep_keep. auto.
  Qed.

  Theorem cut_edge_any : forall h edge f1 f2 p n1 n2, sound h -> In edge (g_edges h) ->
    e_faces h edge = [f1; f2] -> e_nodes h edge = [n1; n2] -> new_point h p ->
    (forall a b, a <> b -> In a [f1; f2] -> In b [f1; f2] -> ~ incl (f_nodes h a) (f_nodes h b)) ->
    exists z h' n3 n4 n e15 e25 e35 e45 g1 g2 g3 g4,
      In n3 (f_nodes h f1) /\ n3 <> n1 /\ n3 <> n2 /\ In n4 (f_nodes h f2) /\ n4 <> n1 /\ n4 <> n2 /\ n3 <> n4 /\
      cut_edge edge p h = (Ok true, h') /\ f_zone h f1 = Some z /\
      rebuilt z h h' (mkPatch [f1; f2] [edge] [(n, p)]
        [(e15, (n1, n)); (e25, (n2, n)); (e35, (n3, n)); (e45, (n4, n))]
        [(g1, (n, n2, n3), f1); (g2, (n, n1, n3), f1); (g3, (n, n1, n4), f2); (g4, (n, n2, n4), f2)]).
  Proof.
    intros h edge f1 f2 p n1 n2 Co He Ef En Hp Hd. pose proof Co as (T & ZO & ZL & Nu & Me).
    destruct (pair_any h edge f1 f2 n1 n2 T ZO He Hd) as (n3 & n4 & e13 & e23 & e14 & e24 & z & w & Ps); auto.
    { rewrite Ef. auto. }
    pose proof (pair_fits t_cut h _ _ _ _ _ _ _ _ _ _ _ _ _ Ps ltac:(rewrite Ef; auto) eq_refl eq_refl eq_refl eq_refl) as Fi.
    pose proof Ps as [B1 B2 Nn Ne Nf].
    pose proof B1 as [(H1 & H2 & H3) (G0 & G1 & G2) Hf1 Nn1 Ne1 Pf1 Pe1 _ P13 P23 [Hz Ez]].
    pose proof B2 as [(_ & _ & H4) (_ & G3 & G4) Hf2 Nn2 Ne2 Pf2 Pe2 _ P14 P24 [_ Ez2]].
    assert (Df : f1 <> f2). { apply NoDup_cons_iff in Nf as [K _]. intros ->. apply K. left; auto. }
    pose proof Nn1 as Nn1'. apply NoDup3 in Nn1' as (D12 & D13 & D23).
    pose proof Nn2 as Nn2'. apply NoDup3 in Nn2' as (_ & D14 & D24).
    apply NoDup3 in Ne1 as (De1 & De2 & _). apply NoDup3 in Ne2 as (De3 & De4 & _).
    assert (Ie1 : In edge (f_edges h f1)) by (apply (t_ef h T); auto; rewrite Ef; left; auto).
    assert (Ie2 : In edge (f_edges h f2)) by (apply (t_ef h T); auto; rewrite Ef; right; left; auto).
    assert (R : exists h', cut_edge edge p h = (Ok true, h') /\ exists a, Inv h a h' /\
      matches t_cut h [n1; n2; n3; n4] [edge; e13; e23; e14; e24] [f1; f2] a z [p] [0; 0; 1; 1]).
    { unfold cut_edge. rewrite bind_gets, Ef, !bind_gets, Ez.
      pose proof (inv_start h T) as I.
      one_step (del_face_inv h T ZO acc0 h f1 I eq_refl eq_refl eq_refl eq_refl Hf1 (fun K => K) (fun e _ => iff_refl False)) I.
      one_step (del_face_inv h T ZO _ _ f2 I eq_refl eq_refl eq_refl eq_refl Hf2 (fun K => match K with or_introl E => Df E | or_intror K => K end) (fun e _ => iff_refl False)) I.
      edge_step (del_edge_inv h T ZL _ _ edge n1 n2 I eq_refl eq_refl eq_refl eq_refl He (fun K => K) (fun f K => K) En) I.
      rewrite Ef, keep_pair in I. cbn [map] in I.
      do 2 one_step (new_face_inv h _ _ (f_data h f1) I) I.
      do 2 one_step (new_face_inv h _ _ (f_data h f2) I) I.
      mid_chain T I.
      rewrite bind_gets, (e_nodes_old h Co _ _ _ I He), En, bind_item0, bind_item1.
      rewrite (third_run _ _ f1 n1 n2 n3) by (auto; rewrite (f_nodes_old h Co _ _ _ I Hf1); auto).
      rewrite (third_run _ _ f2 n1 n2 n4) by (auto; rewrite (f_nodes_old h Co _ _ _ I Hf2); auto).
      unfold some_zone. rewrite bind_lift_ok.
      one_step (place_node_inv h T _ _ z p I Hz (conj (new_point_bag h Co p Hp) (fun K => K))) I.
      mid_chain T I.
      assert (Rm1 : sel [(f1, edge); (f2, edge)] f1 = [edge]).
      { change [(f1, edge); (f2, edge)] with ([(f1, edge)] ++ [(f2, edge)]). rewrite sel_app, sel_one_same, sel_one_other; auto. }
      assert (Rm2 : sel [(f1, edge); (f2, edge)] f2 = [edge]).
      { change [(f1, edge); (f2, edge)] with ([(f1, edge)] ++ [(f2, edge)]). rewrite sel_app, sel_one_same, sel_one_other; auto. }
      erewrite (proj1 (two_edges h edge f1 n1 n2 n3 e13 e23 z _ _ _ _ Co B1 I Rm1)).
      erewrite (proj2 (two_edges h edge f1 n1 n2 n3 e13 e23 z _ _ _ _ Co B1 I Rm1)).
      erewrite (proj1 (two_edges h edge f2 n1 n2 n4 e14 e24 w _ _ _ _ Co B2 I Rm2)).
      erewrite (proj2 (two_edges h edge f2 n1 n2 n4 e14 e24 w _ _ _ _ Co B2 I Rm2)).
      do 4 one_step (new_edge_inv h T _ _ I) I.
      rewrite bind_gets, (e_glo_old h Co _ _ _ I He).
      last_chain Co t_cut_ok Fi I.
      eexists. split; [reflexivity|]. eexists. split; [exact I|].
      pose proof (len_keep2 h f1 f2 Co Hf1 Hf2 Df) as Lf. pose proof (len_keepe h edge Co He) as Le.
      constructor; acc_simpl; try reflexivity.
      - no_rm.
      - split; reflexivity.
      - split; [reflexivity|]. split; [reflexivity|]. cbn. intros i Hi. intuition lia.
      - nums.
      - nums.
      - exists [next_f h; S (next_f h); S (S (next_f h)); S (S (S (next_f h)))].
        split; [|reflexivity]. cbn. apply perm_skip, perm_swap.
      - exact Hz.
      - split; [constructor; [intros []|constructor]|]. intros q [<-|[]]. apply (new_point_bag h Co). auto. }
    destruct R as (h' & E & a & I & Ma). exists z, h', n3, n4.
    pose proof (done_applied t_cut h _ _ _ Co t_cut_ok Fi a z _ _ h' I Ma) as Ap.
    pose proof (uniq_new t_cut h _ _ _ T t_cut_ok Fi h' Ap eq_refl) as U.
    do 9 eexists. split; [apply (Permutation_in _ (Permutation_sym Pf1)); cbn; auto|]. split; [auto|]. split; [auto|].
    split; [apply (Permutation_in _ (Permutation_sym Pf2)); cbn; auto|]. split; [auto|]. split; [auto|].
    split; [apply NoDup_cons_iff in Nn as [_ Nn]; apply NoDup3 in Nn; tauto|].
    split; [exact E|]. split; [exact Ez|].
    exact (done_all t_cut h _ _ _ Co t_cut_ok Fi a z _ _ h' I Ma U).
  Qed.

  Lemma one_of_two : forall h z f1 f2, f_zone h f1 = Some z -> f_zone h f1 = f_zone h f2 ->
    forall f, In f [f1; f2] -> f_zone h f = Some z.
  Proof. intros h z f1 f2 E1 E2 f [<-|[<-|[]]]; congruence. Qed.

  Theorem cut_edge_ok : forall h edge f1 f2 p n1 n2, consistent h -> In edge (g_edges h) ->
    e_faces h edge = [f1; f2] -> e_nodes h edge = [n1; n2] -> new_point h p ->
    (forall a b, a <> b -> In a [f1; f2] -> In b [f1; f2] -> ~ incl (f_nodes h a) (f_nodes h b)) ->
    f_zone h f1 = f_zone h f2 ->
    exists h' n3 n4 n e15 e25 e35 e45 g1 g2 g3 g4,
      In n3 (f_nodes h f1) /\ n3 <> n1 /\ n3 <> n2 /\ In n4 (f_nodes h f2) /\ n4 <> n1 /\ n4 <> n2 /\ n3 <> n4 /\
      cut_edge edge p h = (Ok true, h') /\ consistent h' /\
      patched h h' (mkPatch [f1; f2] [edge] [(n, p)]
        [(e15, (n1, n)); (e25, (n2, n)); (e35, (n3, n)); (e45, (n4, n))]
        [(g1, (n, n2, n3), f1); (g2, (n, n1, n3), f1); (g3, (n, n1, n4), f2); (g4, (n, n2, n4), f2)]).
  Proof.
    intros h edge f1 f2 p n1 n2 Co He Ef En Hp Hd Fz.
    destruct (cut_edge_any h edge f1 f2 p n1 n2 (consistent_sound h Co) He Ef En Hp Hd)
      as (z & h' & n3 & n4 & n & e15 & e25 & e35 & e45 & g1 & g2 & g3 & g4 & X1 & X2 & X3 & X4 & X5 & X6 & X7 & E & Ez & R).
    exists h', n3, n4, n, e15, e25, e35, e45, g1, g2, g3, g4. repeat (split; [assumption|]).
    apply (back_same z); auto. exact (one_of_two h z f1 f2 Ez Fz).
  Qed.
End Pair.
