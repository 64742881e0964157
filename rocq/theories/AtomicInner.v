(** Division of an edge with two faces by two points. *)

From Coq Require Import ZArith NArith Ascii String Bool Lia List Permutation.
From Verif Require Import Py PyLemmas Heap HeapLemmas GridModel GridSpec DecompProofs LoadPlace Atomic AtomicSpec
  PatchProofs PatchRun PatchDel PatchTmpl PatchDone AtomicRun AtomicProofs AtomicCut.
Import ListNotations.
Open Scope list_scope.
Open Scope nat_scope.

Definition t_inner : tmpl := mkTmpl 4 2 1 5 7 2 6
  [(0, 0); (0, 1); (0, 2); (1, 0); (1, 3); (1, 4)]
  [(0, 0); (0, 1); (0, 2); (1, 0); (1, 1); (1, 3)]
  [(0, 0); (0, 1); (1, 0); (1, 2); (2, 1); (2, 2); (3, 0); (3, 3); (4, 1); (4, 3)]
  [(0, 5); (1, 6); (2, 8); (2, 9); (4, 5); (4, 8); (4, 7); (4, 10); (5, 6); (5, 9); (5, 7); (5, 11); (3, 10); (3, 11)]
  [(5, 2); (1, 2); (8, 2); (8, 3); (7, 3); (9, 3); (6, 4); (9, 4); (2, 4); (3, 5); (5, 5); (10, 5); (7, 6); (10, 6); (11, 6); (4, 7); (6, 7); (11, 7)]
  [(0, 2); (0, 5); (1, 4); (1, 7); (2, 2); (2, 3); (2, 4); (4, 2); (4, 3); (4, 5); (4, 6); (5, 3); (5, 4); (5, 6); (5, 7); (3, 5); (3, 6); (3, 7)]
  [2; 3; 4; 5; 6; 7].

Lemma t_inner_ok : check t_inner = true.
Proof. reflexivity. Qed.


Section Inner.
  Context {F : FloatOps}.

  Theorem cut_inner_two_any : forall h edge f1 f2 p1 p2 n1 n2, sound h -> In edge (g_edges h) ->
    e_faces h edge = [f1; f2] -> e_nodes h edge = [n1; n2] -> new_point h p1 -> new_point h p2 -> rnd p1 <> rnd p2 ->
    (forall a b, a <> b -> In a [f1; f2] -> In b [f1; f2] -> ~ incl (f_nodes h a) (f_nodes h b)) ->
    exists z h' n3 n6 n4 n5 e14 e25 e45 e34 e35 e46 e56 g1 g2 g3 g4 g5 g6,
      In n3 (f_nodes h f1) /\ n3 <> n1 /\ n3 <> n2 /\ In n6 (f_nodes h f2) /\ n6 <> n1 /\ n6 <> n2 /\ n3 <> n6 /\
      cut_edge_with_two_nodes edge p1 p2 h = (Ok true, h') /\ f_zone h f1 = Some z /\
      rebuilt z h h' (mkPatch [f1; f2] [edge] [(n4, p1); (n5, p2)]
        [(e14, (n1, n4)); (e25, (n2, n5)); (e45, (n4, n5)); (e34, (n3, n4)); (e35, (n3, n5)); (e46, (n4, n6)); (e56, (n5, n6))]
        [(g1, (n1, n3, n4), f1); (g2, (n3, n4, n5), f1); (g3, (n2, n3, n5), f1);
         (g4, (n1, n4, n6), f2); (g5, (n4, n5, n6), f2); (g6, (n2, n5, n6), f2)]).
  Proof.
    intros h edge f1 f2 p1 p2 n1 n2 Co He Ef En Hp1 Hp2 Hne Hd. pose proof Co as (T & ZO & ZL & Nu & Me).
    destruct (pair_any h edge f1 f2 n1 n2 T ZO He Hd) as (n3 & n4 & e13 & e23 & e14 & e24 & z & w & Ps); auto.
    { rewrite Ef. auto. }
    pose proof (pair_fits t_inner h _ _ _ _ _ _ _ _ _ _ _ _ _ Ps ltac:(rewrite Ef; auto) eq_refl eq_refl eq_refl eq_refl) as Fi.
    pose proof Ps as [B1 B2 Nn Ne Nf].
    pose proof B1 as [(H1 & H2 & H3) (G0 & G1 & G2) Hf1 Nn1 Ne1 Pf1 Pe1 _ P13 P23 [Hz Ez]].
    pose proof B2 as [(_ & _ & H4) (_ & G3 & G4) Hf2 Nn2 Ne2 Pf2 Pe2 _ P14 P24 [_ Ez2]].
    assert (Df : f1 <> f2). { apply NoDup_cons_iff in Nf as [K _]. intros ->. apply K. left; auto. }
    pose proof Nn1 as Nn1'. apply NoDup3 in Nn1' as (D12 & D13 & D23).
    pose proof Nn2 as Nn2'. apply NoDup3 in Nn2' as (_ & D14 & D24).
    apply NoDup3 in Ne1 as (De1 & De2 & _). apply NoDup3 in Ne2 as (De3 & De4 & _).
    assert (Ie1 : In edge (f_edges h f1)) by (apply (t_ef h T); auto; rewrite Ef; left; auto).
    assert (Ie2 : In edge (f_edges h f2)) by (apply (t_ef h T); auto; rewrite Ef; right; left; auto).
    assert (R : exists h', cut_edge_with_two_nodes edge p1 p2 h = (Ok true, h') /\ exists a, Inv h a h' /\
      matches t_inner h [n1; n2; n3; n4] [edge; e13; e23; e14; e24] [f1; f2] a z [p1; p2] [0; 0; 0; 1; 1; 1]).
    { unfold cut_edge_with_two_nodes. rewrite bind_gets, Ef. unfold cut_inner_two. rewrite !bind_gets, Ez.
      pose proof (inv_start h T) as I.
      one_step (del_face_inv h T ZO acc0 h f1 I eq_refl eq_refl eq_refl eq_refl Hf1 (fun K => K) (fun e _ => iff_refl False)) I.
      one_step (del_face_inv h T ZO _ _ f2 I eq_refl eq_refl eq_refl eq_refl Hf2 (fun K => match K with or_introl E => Df E | or_intror K => K end) (fun e _ => iff_refl False)) I.
      edge_step (del_edge_inv h T ZL _ _ edge n1 n2 I eq_refl eq_refl eq_refl eq_refl He (fun K => K) (fun f K => K) En) I.
      rewrite Ef, keep_pair in I. cbn [map] in I.
      do 3 one_step (new_face_inv h _ _ (f_data h f1) I) I.
      do 3 one_step (new_face_inv h _ _ (f_data h f2) I) I.
      mid_chain T I.
      rewrite bind_gets, (e_nodes_old h Co _ _ _ I He), En, bind_item0, bind_item1.
      rewrite (third_run _ _ f1 n1 n2 n3) by (auto; rewrite (f_nodes_old h Co _ _ _ I Hf1); auto).
      rewrite (third_run _ _ f2 n1 n2 n4) by (auto; rewrite (f_nodes_old h Co _ _ _ I Hf2); auto).
      unfold some_zone. rewrite bind_lift_ok.
      one_step (place_node_inv h T _ _ z p1 I Hz (conj (new_point_bag h Co p1 Hp1) (fun K => K))) I.
      one_step (place_node_inv h T _ _ z p2 I Hz (conj (new_point_bag h Co p2 Hp2) (fun K => match K with or_introl E => Hne E | or_intror K => K end))) I.
      mid_chain T I.
      assert (Rm1 : sel [(f1, edge); (f2, edge)] f1 = [edge]).
      { change [(f1, edge); (f2, edge)] with ([(f1, edge)] ++ [(f2, edge)]). rewrite sel_app, sel_one_same, sel_one_other; auto. }
      assert (Rm2 : sel [(f1, edge); (f2, edge)] f2 = [edge]).
      { change [(f1, edge); (f2, edge)] with ([(f1, edge)] ++ [(f2, edge)]). rewrite sel_app, sel_one_same, sel_one_other; auto. }
      erewrite (proj1 (two_edges h edge f1 n1 n2 n3 e13 e23 z _ _ _ _ Co B1 I Rm1)).
      erewrite (proj2 (two_edges h edge f1 n1 n2 n3 e13 e23 z _ _ _ _ Co B1 I Rm1)).
      erewrite (proj1 (two_edges h edge f2 n1 n2 n4 e14 e24 w _ _ _ _ Co B2 I Rm2)).
      erewrite (proj2 (two_edges h edge f2 n1 n2 n4 e14 e24 w _ _ _ _ Co B2 I Rm2)).
      do 7 one_step (new_edge_inv h T _ _ I) I.
      rewrite bind_gets, (e_glo_old h Co _ _ _ I He).
      last_chain Co t_inner_ok Fi I.
      eexists. split; [reflexivity|]. eexists. split; [exact I|].
      pose proof (len_keep2 h f1 f2 Co Hf1 Hf2 Df) as Lf. pose proof (len_keepe h edge Co He) as Le.
      constructor; acc_simpl; try reflexivity.
      - no_rm.
      - split; reflexivity.
      - split; [reflexivity|]. split; [reflexivity|]. cbn. intros i Hi. intuition lia.
      - nums.
      - nums.
      - eexists. split; [apply Permutation_refl|reflexivity].
      - exact Hz.
      - split; [cbn; constructor; [cbn; intuition|constructor; [intros []|constructor]]|].
        intros q [<-|[<-|[]]]; apply (new_point_bag h Co); auto. }
    destruct R as (h' & E & a & I & Ma). exists z, h', n3, n4.
    pose proof (done_applied t_inner h _ _ _ Co t_inner_ok Fi a z _ _ h' I Ma) as Ap.
    pose proof (uniq_new t_inner h _ _ _ T t_inner_ok Fi h' Ap eq_refl) as U.
    do 15 eexists. split; [apply (Permutation_in _ (Permutation_sym Pf1)); cbn; auto|]. split; [auto|]. split; [auto|].
    split; [apply (Permutation_in _ (Permutation_sym Pf2)); cbn; auto|]. split; [auto|]. split; [auto|].
    split; [apply NoDup_cons_iff in Nn as [_ Nn]; apply NoDup3 in Nn; tauto|].
    split; [exact E|]. split; [exact Ez|].
    exact (done_all t_inner h _ _ _ Co t_inner_ok Fi a z _ _ h' I Ma U).
  Qed.

  Theorem cut_inner_two_ok : forall h edge f1 f2 p1 p2 n1 n2, consistent h -> In edge (g_edges h) ->
    e_faces h edge = [f1; f2] -> e_nodes h edge = [n1; n2] -> new_point h p1 -> new_point h p2 -> rnd p1 <> rnd p2 ->
    (forall a b, a <> b -> In a [f1; f2] -> In b [f1; f2] -> ~ incl (f_nodes h a) (f_nodes h b)) ->
    f_zone h f1 = f_zone h f2 ->
    exists h' n3 n6 n4 n5 e14 e25 e45 e34 e35 e46 e56 g1 g2 g3 g4 g5 g6,
      In n3 (f_nodes h f1) /\ n3 <> n1 /\ n3 <> n2 /\ In n6 (f_nodes h f2) /\ n6 <> n1 /\ n6 <> n2 /\ n3 <> n6 /\
      cut_edge_with_two_nodes edge p1 p2 h = (Ok true, h') /\ consistent h' /\
      patched h h' (mkPatch [f1; f2] [edge] [(n4, p1); (n5, p2)]
        [(e14, (n1, n4)); (e25, (n2, n5)); (e45, (n4, n5)); (e34, (n3, n4)); (e35, (n3, n5)); (e46, (n4, n6)); (e56, (n5, n6))]
        [(g1, (n1, n3, n4), f1); (g2, (n3, n4, n5), f1); (g3, (n2, n3, n5), f1);
         (g4, (n1, n4, n6), f2); (g5, (n4, n5, n6), f2); (g6, (n2, n5, n6), f2)]).
  Proof.
    intros h edge f1 f2 p1 p2 n1 n2 Co He Ef En Hp1 Hp2 Hne Hd Fz.
    destruct (cut_inner_two_any h edge f1 f2 p1 p2 n1 n2 (consistent_sound h Co) He Ef En Hp1 Hp2 Hne Hd)
      as (z & h' & n3 & n6 & n4 & n5 & e14 & e25 & e45 & e34 & e35 & e46 & e56 & g1 & g2 & g3 & g4 & g5 & g6 &
          X1 & X2 & X3 & X4 & X5 & X6 & X7 & E & Ez & R).
    exists h', n3, n6, n4, n5, e14, e25, e45, e34, e35, e46, e56, g1, g2, g3, g4, g5, g6. repeat (split; [assumption|]).
    apply (back_same z); auto. exact (one_of_two h z f1 f2 Ez Fz).
  Qed.
End Inner.
