(** Division of a border edge by two points. *)

From Coq Require Import ZArith NArith Ascii String Bool Lia List Permutation.
From Verif Require Import Py PyLemmas Heap HeapLemmas GridModel GridSpec DecompProofs LoadPlace Atomic AtomicSpec
  PatchProofs PatchRun PatchDel PatchTmpl PatchDone AtomicRun AtomicProofs.
Import ListNotations.
Open Scope list_scope.
Open Scope nat_scope.

Definition t_two : tmpl := mkTmpl 3 2 1 3 5 1 3
  [(0, 0); (0, 1); (0, 2)]
  [(0, 0); (0, 1); (0, 2)]
  [(0, 0); (0, 1); (1, 0); (1, 2); (2, 1); (2, 2)]
  [(0, 3); (1, 4); (2, 6); (2, 7); (3, 3); (3, 6); (3, 5); (4, 4); (4, 7); (4, 5)]
  [(3, 1); (1, 1); (6, 1); (6, 2); (5, 2); (7, 2); (4, 3); (7, 3); (2, 3)]
  [(0, 1); (1, 3); (2, 1); (2, 2); (2, 3); (3, 1); (3, 2); (4, 2); (4, 3)]
  [1; 2; 3].

Lemma t_two_ok : check t_two = true.
Proof. reflexivity. Qed.


Section Two.
  Context {F : FloatOps}.

  Theorem cut_border_two_any : forall h edge face p1 p2 n1 n2, sound h -> In edge (g_edges h) ->
    e_faces h edge = [face] -> e_nodes h edge = [n1; n2] -> new_point h p1 -> new_point h p2 -> rnd p1 <> rnd p2 ->
    exists z h' n3 n4 n5 e14 e25 e45 e34 e35 f1 f2 f3, In n3 (f_nodes h face) /\ n3 <> n1 /\ n3 <> n2 /\
      cut_edge_with_two_nodes edge p1 p2 h = (Ok true, h') /\ f_zone h face = Some z /\
      rebuilt z h h' (mkPatch [face] [edge] [(n4, p1); (n5, p2)]
        [(e14, (n1, n4)); (e25, (n2, n5)); (e45, (n4, n5)); (e34, (n3, n4)); (e35, (n3, n5))]
        [(f1, (n1, n3, n4), face); (f2, (n3, n4, n5), face); (f3, (n2, n3, n5), face)]).
  Proof.
    intros h edge face p1 p2 n1 n2 Co He Ef En Hp1 Hp2 Hne. pose proof Co as (T & ZO & ZL & Nu & Me).
    destruct (face_at h edge face n1 n2 T ZO He) as (n3 & e13 & e23 & z & Bs); auto.
    { rewrite Ef. left; auto. }
    pose proof Bs as [(H1 & H2 & H3) (G0 & G1 & G2) Hf Nn Ne Pf Pe _ P13 P23 [Hz Ez]].
    pose proof Nn as Nn'. apply NoDup3 in Nn' as (D12 & D13 & D23).
    pose proof Ne as Ne'. apply NoDup3 in Ne' as (De1 & De2 & De3).
    assert (Ie : In edge (f_edges h face)) by (apply (t_ef h T); auto; rewrite Ef; left; auto).
    assert (Fi : fits t_two h [n1; n2; n3] [edge; e13; e23] [face]).
    { constructor; cbn.
      - auto.
      - split; [auto|]. split; [auto|]. constructor; [intros []|constructor].
      - repeat split; intros x Hx; cbn in Hx; intuition (subst; auto).
      - intros [|i] Hi; [|lia]. exact Pf.
      - intros [|i] Hi; [|lia]. exact Pe.
      - intros [|[|[|i]]] Hi; cbn; try lia; auto. rewrite En. auto.
      - intros [|i] Hi; [|lia]. cbn. rewrite Ef. apply incl_refl. }
    assert (R : exists h', cut_edge_with_two_nodes edge p1 p2 h = (Ok true, h') /\ exists a, Inv h a h' /\
      matches t_two h [n1; n2; n3] [edge; e13; e23] [face] a z [p1; p2] [0; 0; 0]).
    { unfold cut_edge_with_two_nodes. rewrite bind_gets, Ef. unfold cut_border_two. rewrite !bind_gets, Ez.
      pose proof (inv_start h T) as I.
      one_step (del_face_inv h T ZO acc0 h face I eq_refl eq_refl eq_refl eq_refl Hf (fun K => K) (fun e _ => iff_refl False)) I.
      edge_step (del_edge_inv h T ZL _ _ edge n1 n2 I eq_refl eq_refl eq_refl eq_refl He (fun K => K) (fun f K => K) En) I.
      rewrite Ef, keep_same in I. cbn [map] in I.
      do 3 one_step (new_face_inv h _ _ (f_data h face) I) I.
      mid_chain T I.
      rewrite bind_gets, (e_nodes_old h Co _ _ _ I He), En, bind_item0, bind_item1.
      rewrite (third_run _ _ face n1 n2 n3) by (auto; rewrite (f_nodes_old h Co _ _ _ I Hf); auto).
      unfold some_zone. rewrite bind_lift_ok.
      one_step (place_node_inv h T _ _ z p1 I Hz (conj (new_point_bag h Co p1 Hp1) (fun K => K))) I.
      one_step (place_node_inv h T _ _ z p2 I Hz (conj (new_point_bag h Co p2 Hp2) (fun K => match K with or_introl E => Hne E | or_intror K => K end))) I.
      mid_chain T I.
      assert (Rm : sel [(face, edge)] face = [edge]) by apply sel_one_same.
      erewrite (proj1 (two_edges h edge face n1 n2 n3 e13 e23 z _ _ _ _ Co Bs I Rm)).
      erewrite (proj2 (two_edges h edge face n1 n2 n3 e13 e23 z _ _ _ _ Co Bs I Rm)).
      do 5 one_step (new_edge_inv h T _ _ I) I.
      rewrite bind_gets, (e_glo_old h Co _ _ _ I He).
      last_chain Co t_two_ok Fi I.
      eexists. split; [reflexivity|]. eexists. split; [exact I|].
      pose proof (len_keep1 h face Co Hf) as Lf. pose proof (len_keepe h edge Co He) as Le.
      constructor; acc_simpl; try reflexivity.
      - no_rm.
      - split; reflexivity.
      - split; [reflexivity|]. split; [reflexivity|]. cbn. intros i Hi. intuition lia.
      - nums.
      - nums.
      - eexists. split; [apply Permutation_refl|reflexivity].
      - exact Hz.
      - split; [cbn; constructor; [cbn; intuition|constructor; [intros []|constructor]]|].
        intros q [<-|[<-|[]]]; apply (new_point_bag h Co); auto. }
    destruct R as (h' & E & a & I & Ma). exists z, h', n3.
    pose proof (done_applied t_two h _ _ _ Co t_two_ok Fi a z _ _ h' I Ma) as Ap.
    pose proof (uniq_new t_two h _ _ _ T t_two_ok Fi h' Ap eq_refl) as U.
    do 10 eexists. split; [apply (Permutation_in _ (Permutation_sym Pf)); cbn; auto|]. split; [auto|]. split; [auto|].
    split; [exact E|]. split; [exact Ez|].
    exact (done_all t_two h _ _ _ Co t_two_ok Fi a z _ _ h' I Ma U).
  Qed.

  Theorem cut_border_two_ok : forall h edge face p1 p2 n1 n2, consistent h -> In edge (g_edges h) ->
    e_faces h edge = [face] -> e_nodes h edge = [n1; n2] -> new_point h p1 -> new_point h p2 -> rnd p1 <> rnd p2 ->
    exists h' n3 n4 n5 e14 e25 e45 e34 e35 f1 f2 f3, In n3 (f_nodes h face) /\ n3 <> n1 /\ n3 <> n2 /\
      cut_edge_with_two_nodes edge p1 p2 h = (Ok true, h') /\ consistent h' /\
      patched h h' (mkPatch [face] [edge] [(n4, p1); (n5, p2)]
        [(e14, (n1, n4)); (e25, (n2, n5)); (e45, (n4, n5)); (e34, (n3, n4)); (e35, (n3, n5))]
        [(f1, (n1, n3, n4), face); (f2, (n3, n4, n5), face); (f3, (n2, n3, n5), face)]).
  Proof.
    intros h edge face p1 p2 n1 n2 Co He Ef En Hp1 Hp2 Hne.
    destruct (cut_border_two_any h edge face p1 p2 n1 n2 (consistent_sound h Co) He Ef En Hp1 Hp2 Hne)
      as (z & h' & n3 & n4 & n5 & e14 & e25 & e45 & e34 & e35 & f1 & f2 & f3 & X1 & X2 & X3 & E & Ez & R).
    exists h', n3, n4, n5, e14, e25, e45, e34, e35, f1, f2, f3. repeat (split; [assumption|]). apply (back_same z); auto.
    intros f [<-|[]]. auto.
  Qed.
End Two.
