(** Results of the atomic transformations. *)

From Coq Require Import ZArith NArith Ascii String Bool Lia List Permutation.
From Verif Require Import Py PyLemmas Heap HeapLemmas GridModel GridSpec DecompProofs LoadPlace Atomic AtomicSpec
  PatchProofs PatchRun PatchDel PatchTmpl PatchDone AtomicRun.
Import ListNotations.
Open Scope list_scope.
Open Scope nat_scope.

Definition t_divide : tmpl := mkTmpl 3 1 0 3 3 1 3
  [(0, 0); (0, 1); (0, 2)] [(0, 0); (0, 1); (0, 2)] [(0, 0); (0, 1); (1, 1); (1, 2); (2, 0); (2, 2)]
  [(0, 3); (1, 4); (2, 5); (3, 3); (3, 4); (3, 5)]
  [(0, 1); (1, 2); (2, 3); (3, 1); (3, 3); (4, 1); (4, 2); (5, 2); (5, 3)]
  [(0, 1); (0, 3); (1, 1); (1, 2); (2, 2); (2, 3); (3, 1); (3, 2); (3, 3)]
  [1; 2; 3].

Lemma t_divide_ok : check t_divide = true.
Proof. reflexivity. Qed.

Definition t_single : tmpl := mkTmpl 3 1 1 3 3 1 2
  [(0, 0); (0, 1); (0, 2)] [(0, 0); (0, 1); (0, 2)] [(0, 0); (0, 1); (1, 0); (1, 2); (2, 1); (2, 2)]
  [(3, 3); (3, 4); (3, 5); (0, 3); (1, 4); (2, 5)]
  [(5, 1); (5, 2); (1, 1); (2, 2); (3, 1); (4, 2)]
  [(2, 1); (2, 2); (3, 1); (3, 2); (0, 1); (1, 2)]
  [1; 2].

Lemma t_single_ok : check t_single = true.
Proof. reflexivity. Qed.

Section Atomic.
  Context {F : FloatOps}.

  Theorem divide_face_any : forall h face p n1 n2 n3, sound h -> In face (g_faces h) -> new_point h p ->
    f_nodes h face = [n1; n2; n3] ->
    exists z h' n e4 e5 e6 f1 f2 f3, divide_face face p h = (Ok tt, h') /\ f_zone h face = Some z /\
      rebuilt z h h' (mkPatch [face] [] [(n, p)] [(e4, (n1, n)); (e5, (n2, n)); (e6, (n3, n))]
        [(f1, (n1, n2, n), face); (f2, (n2, n3, n), face); (f3, (n1, n3, n), face)]).
  Proof.
    intros h face p n1 n2 n3 Co Hf Hp En. pose proof Co as (T & ZO & ZL & Nu & Me).
    destruct (t_face_nodes h T face Hf) as (_ & Nd & Ni). rewrite En in Nd, Ni.
    destruct (t_face_edges h T face Hf) as (Le & Ned & Nei).
    pose proof Nd as Nd3. apply NoDup3 in Nd3 as (D12 & D13 & D23).
    assert (H1 : In n1 (g_nodes h)) by (apply Ni; cbn; auto).
    assert (H2 : In n2 (g_nodes h)) by (apply Ni; cbn; auto).
    assert (H3 : In n3 (g_nodes h)) by (apply Ni; cbn; auto).
    assert (Pair : forall a b, In a [n1; n2; n3] -> In b [n1; n2; n3] -> a <> b ->
      exists e, In e (f_edges h face) /\ Permutation (e_nodes h e) [a; b]).
    { intros a b Ha Hb D. destruct (t_pairs h T face a b) as (e & K1 & K2 & K3); auto; try (rewrite En; auto).
      exists e. split; auto. destruct (t_edge_nodes h T e (Nei _ K1)) as (L & N & _). apply perm2; auto. }
    destruct (Pair n1 n2) as (e1 & A1 & P1); cbn; auto. destruct (Pair n2 n3) as (e2 & A2 & P2); cbn; auto.
    destruct (Pair n1 n3) as (e3 & A3 & P3); cbn; auto. clear Pair.
    assert (Ned3 : e1 <> e2 /\ e1 <> e3 /\ e2 <> e3).
    { repeat split; intros E; subst.
      - assert (K : In n1 [n2; n3]) by (apply (Permutation_in _ P2), (Permutation_in _ (Permutation_sym P1)); left; auto).
        cbn in K. intuition congruence.
      - assert (K : In n2 [n1; n3]) by (apply (Permutation_in _ P3), (Permutation_in _ (Permutation_sym P1)); right; left; auto).
        cbn in K. intuition congruence.
      - assert (K : In n2 [n1; n3]) by (apply (Permutation_in _ P3), (Permutation_in _ (Permutation_sym P2)); left; auto).
        cbn in K. intuition congruence. }
    destruct Ned3 as (De12 & De13 & De23).
    pose proof (Nei _ A1) as G1. pose proof (Nei _ A2) as G2. pose proof (Nei _ A3) as G3.
    destruct (zo_cover h ZO face Hf) as (z & Hz & Ez).
    assert (Fi : fits t_divide h [n1; n2; n3] [e1; e2; e3] [face]).
    { constructor; cbn.
      - auto.
      - split; [auto|]. split; [apply NoDup3; auto|]. constructor; [intros []|constructor].
      - repeat split; intros x Hx; cbn in Hx; intuition (subst; auto).
      - intros [|i] Hi; [|lia]. cbn. rewrite En. auto.
      - intros [|i] Hi; [|lia]. cbn. apply perm3; auto.
      - intros [|[|[|i]]] Hi; cbn; try lia; auto.
      - intros i Hi. lia. }
    assert (R : exists h', divide_face face p h = (Ok tt, h') /\ exists a, Inv h a h' /\
      matches t_divide h [n1; n2; n3] [e1; e2; e3] [face] a z [p] [0; 0; 0]).
    { unfold divide_face. rewrite !bind_gets, En, Ez.
      pose proof (inv_start h T) as I.
      one_step (del_face_inv h T ZO acc0 h face I eq_refl eq_refl eq_refl eq_refl Hf (fun K => K) (fun e _ => iff_refl False)) I.
      one_step (new_face_inv h _ _ (f_data h face) I) I.
      one_step (new_face_inv h _ _ (f_data h face) I) I.
      one_step (new_face_inv h _ _ (f_data h face) I) I.
      rewrite bind_item0, bind_item1. cbn [tl]. rewrite bind_item1. unfold some_zone. rewrite bind_lift_ok.
      assert (Hp' : pt_new h (mkAcc [face] [] [] [] [] [] [] [f_data h face; f_data h face; f_data h face] 0 [] [] [] [] []) p).
      { split; [apply (new_point_bag h Co); auto|intros []]. }
      one_step (place_node_inv h T _ _ z p I Hz Hp') I.
      rewrite !bind_gets.
      rewrite (find_edge_inv h Co _ _ e1 n1 n2 I eq_refl eq_refl (Nei _ A1) P1).
      rewrite (find_edge_inv h Co _ _ e2 n2 n3 I eq_refl eq_refl (Nei _ A2) P2).
      rewrite (find_edge_inv h Co _ _ e3 n1 n3 I eq_refl eq_refl (Nei _ A3) P3).
      one_step (new_edge_inv h T _ _ I) I.
      one_step (new_edge_inv h T _ _ I) I.
      one_step (new_edge_inv h T _ _ I) I.
      last_chain Co t_divide_ok Fi I.
      destruct (op_inv h T _ _ (oZE z (S (S (next_e h)))) I Hz) as (h2 & E2 & I2). cbn [run_op] in E2. rewrite E2.
      acc_simpl.
      exists h2. split; [reflexivity|]. eexists. split; [exact I2|].
      pose proof (keep_len1 face (g_faces h) (t_faces_nd h T) Hf) as Lf.
      constructor; acc_simpl; try reflexivity.
      - split; reflexivity.
      - split; [reflexivity|]. split; [reflexivity|]. cbn. intros i Hi. intuition lia.
      - nums.
      - rewrite keep_nil. nums.
      - exists [next_f h; S (next_f h); S (S (next_f h))]. split; [apply Permutation_refl|reflexivity].
      - exact Hz.
      - split; [constructor; [intros []|constructor]|]. intros q [<-|[]]. apply (new_point_bag h Co). auto. }
    destruct R as (h' & E & a & I & Ma). exists z, h'.
    pose proof (done_applied t_divide h _ _ _ Co t_divide_ok Fi a z _ _ h' I Ma) as Ap.
    pose proof (uniq_new t_divide h _ _ _ T t_divide_ok Fi h' Ap eq_refl) as U.
    do 7 eexists. split; [exact E|]. split; [exact Ez|].
    exact (done_all t_divide h _ _ _ Co t_divide_ok Fi a z _ _ h' I Ma U).
  Qed.

  Theorem divide_face_ok : forall h face p n1 n2 n3, consistent h -> In face (g_faces h) -> new_point h p ->
    f_nodes h face = [n1; n2; n3] ->
    exists h' n e4 e5 e6 f1 f2 f3, divide_face face p h = (Ok tt, h') /\ consistent h' /\
      patched h h' (mkPatch [face] [] [(n, p)] [(e4, (n1, n)); (e5, (n2, n)); (e6, (n3, n))]
        [(f1, (n1, n2, n), face); (f2, (n2, n3, n), face); (f3, (n1, n3, n), face)]).
  Proof.
    intros h face p n1 n2 n3 Co Hf Hp En.
    destruct (divide_face_any h face p n1 n2 n3 (consistent_sound h Co) Hf Hp En)
      as (z & h' & n & e4 & e5 & e6 & f1 & f2 & f3 & E & Ez & R).
    exists h', n, e4, e5, e6, f1, f2, f3. split; [exact E|]. apply (back_same z); auto.
    intros f [<-|[]]. auto.
  Qed.

  Lemma len_keep1 : forall h f, sound h -> In f (g_faces h) -> S (length (keep [f] (g_faces h))) = length (g_faces h).
  Proof. intros h f (T & _) H. apply keep_len1; auto. apply (t_faces_nd h T). Qed.
  Lemma len_keepe : forall h e, sound h -> In e (g_edges h) -> S (length (keep [e] (g_edges h))) = length (g_edges h).
  Proof. intros h f (T & _) H. apply keep_len1; auto. apply (t_edges_nd h T). Qed.
  Lemma keep_same : forall x : nat, keep [x] [x] = [].
  Proof. intros x. unfold keep. cbn. rewrite Nat.eqb_refl. auto. Qed.

  Theorem cut_single_edge_any : forall h edge face p n1 n2, sound h -> In edge (g_edges h) ->
    e_faces h edge = [face] -> e_nodes h edge = [n1; n2] -> new_point h p ->
    exists z h' n3 n e14 e24 e34 f1 f2, In n3 (f_nodes h face) /\ n3 <> n1 /\ n3 <> n2 /\
      cut_single_edge edge p h = (Ok true, h') /\ f_zone h face = Some z /\
      rebuilt z h h' (mkPatch [face] [edge] [(n, p)] [(e14, (n, n1)); (e24, (n, n2)); (e34, (n, n3))]
        [(f1, (n3, n, n1), face); (f2, (n3, n, n2), face)]).
  Proof.
    intros h edge face p n1 n2 Co He Ef En Hp. pose proof Co as (T & ZO & ZL & Nu & Me).
    destruct (face_at h edge face n1 n2 T ZO He) as (n3 & e13 & e23 & z & Bs); auto.
    { rewrite Ef. left; auto. }
    pose proof Bs as [(H1 & H2 & H3) (G0 & G1 & G2) Hf Nn Ne Pf Pe _ P13 P23 [Hz Ez]].
    pose proof Nn as Nn'. apply NoDup3 in Nn' as (D12 & D13 & D23).
    pose proof Ne as Ne'. apply NoDup3 in Ne' as (De1 & De2 & De3).
    assert (Ie : In edge (f_edges h face)) by (apply (t_ef h T); auto; rewrite Ef; left; auto).
    assert (Fi : fits t_single h [n1; n2; n3] [edge; e13; e23] [face]).
    { constructor; cbn.
      - auto.
      - split; [auto|]. split; [auto|]. constructor; [intros []|constructor].
      - repeat split; intros x Hx; cbn in Hx; intuition (subst; auto).
      - intros [|i] Hi; [|lia]. exact Pf.
      - intros [|i] Hi; [|lia]. exact Pe.
      - intros [|[|[|i]]] Hi; cbn; try lia; auto. rewrite En. auto.
      - intros [|i] Hi; [|lia]. cbn. rewrite Ef. apply incl_refl. }
    assert (R : exists h', cut_single_edge edge p h = (Ok true, h') /\ exists a, Inv h a h' /\
      matches t_single h [n1; n2; n3] [edge; e13; e23] [face] a z [p] [0; 0]).
    { unfold cut_single_edge. rewrite bind_gets, Ef, !bind_gets, Ez.
      pose proof (inv_start h T) as I.
      one_step (del_face_inv h T ZO acc0 h face I eq_refl eq_refl eq_refl eq_refl Hf (fun K => K) (fun e _ => iff_refl False)) I.
      edge_step (del_edge_inv h T ZL _ _ edge n1 n2 I eq_refl eq_refl eq_refl eq_refl He (fun K => K) (fun f K => K) En) I.
      rewrite Ef, keep_same in I. cbn [map] in I.
      one_step (new_face_inv h _ _ (f_data h face) I) I.
      one_step (new_face_inv h _ _ (f_data h face) I) I.
      mid_chain T I.
      rewrite bind_gets, (e_nodes_old h Co _ _ _ I He), En, bind_item0, bind_item1.
      rewrite (third_run _ _ face n1 n2 n3) by (auto; rewrite (f_nodes_old h Co _ _ _ I Hf); auto).
      unfold some_zone. rewrite bind_lift_ok.
      one_step (place_node_inv h T _ _ z p I Hz (conj (new_point_bag h Co p Hp) (fun K => K))) I.
      mid_chain T I.
      assert (Rm : sel [(face, edge)] face = [edge]) by apply sel_one_same.
      erewrite (proj1 (two_edges h edge face n1 n2 n3 e13 e23 z _ _ _ _ Co Bs I Rm)).
      erewrite (proj2 (two_edges h edge face n1 n2 n3 e13 e23 z _ _ _ _ Co Bs I Rm)).
      one_step (new_edge_inv h T _ _ I) I.
      one_step (new_edge_inv h T _ _ I) I.
      one_step (new_edge_inv h T _ _ I) I.
      rewrite bind_gets, (e_glo_old h Co _ _ _ I He).
      last_chain Co t_single_ok Fi I.
      eexists. split; [reflexivity|]. eexists. split; [exact I|].
      pose proof (len_keep1 h face Co Hf) as Lf. pose proof (len_keepe h edge Co He) as Le.
      constructor; acc_simpl; try reflexivity.
      - no_rm.
      - split; reflexivity.
      - split; [reflexivity|]. split; [reflexivity|]. cbn. intros i Hi. intuition lia.
      - nums.
      - nums.
      - exists [next_f h; S (next_f h)]. split; [apply Permutation_refl|reflexivity].
      - exact Hz.
      - split; [constructor; [intros []|constructor]|]. intros q [<-|[]]. apply (new_point_bag h Co). auto. }
    destruct R as (h' & E & a & I & Ma). exists z, h', n3.
    pose proof (done_applied t_single h _ _ _ Co t_single_ok Fi a z _ _ h' I Ma) as Ap.
    pose proof (uniq_new t_single h _ _ _ T t_single_ok Fi h' Ap eq_refl) as U.
    do 6 eexists. split; [apply (Permutation_in _ (Permutation_sym Pf)); cbn; auto|]. split; [auto|]. split; [auto|].
    split; [exact E|]. split; [exact Ez|].
    exact (done_all t_single h _ _ _ Co t_single_ok Fi a z _ _ h' I Ma U).
  Qed.

  Theorem cut_single_edge_ok : forall h edge face p n1 n2, consistent h -> In edge (g_edges h) ->
    e_faces h edge = [face] -> e_nodes h edge = [n1; n2] -> new_point h p ->
    exists h' n3 n e14 e24 e34 f1 f2, In n3 (f_nodes h face) /\ n3 <> n1 /\ n3 <> n2 /\
      cut_single_edge edge p h = (Ok true, h') /\ consistent h' /\
      patched h h' (mkPatch [face] [edge] [(n, p)] [(e14, (n, n1)); (e24, (n, n2)); (e34, (n, n3))]
        [(f1, (n3, n, n1), face); (f2, (n3, n, n2), face)]).
  Proof.
    intros h edge face p n1 n2 Co He Ef En Hp.
    destruct (cut_single_edge_any h edge face p n1 n2 (consistent_sound h Co) He Ef En Hp)
      as (z & h' & n3 & n & e14 & e24 & e34 & f1 & f2 & X1 & X2 & X3 & E & Ez & R).
    exists h', n3, n, e14, e24, e34, f1, f2. repeat (split; [assumption|]). apply (back_same z); auto.
    intros f [<-|[]]. auto.
  Qed.
End Atomic.
