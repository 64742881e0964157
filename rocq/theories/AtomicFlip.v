(** Exchange of the longest edge of a face. *)

From Coq Require Import ZArith NArith Ascii String Bool Lia List Permutation.
From Verif Require Import Py PyLemmas Heap HeapLemmas GridModel GridSpec DecompProofs LoadPlace Atomic AtomicSpec
  PatchProofs PatchRun PatchDel PatchTmpl PatchDone AtomicRun AtomicProofs AtomicCut.
Import ListNotations.
Open Scope list_scope.
Open Scope nat_scope.

Definition t_flip : tmpl := mkTmpl 4 0 1 5 1 2 2
  [(0, 0); (0, 1); (0, 2); (1, 0); (1, 3); (1, 4)]
  [(0, 0); (0, 1); (0, 2); (1, 0); (1, 1); (1, 3)]
  [(0, 0); (0, 1); (1, 0); (1, 2); (2, 1); (2, 2); (3, 0); (3, 3); (4, 1); (4, 3)]
  [(2, 5); (3, 5)]
  [(1, 2); (3, 2); (5, 2); (2, 3); (4, 3); (5, 3)]
  [(0, 2); (2, 2); (3, 2); (1, 3); (2, 3); (3, 3)]
  [2; 3].

Lemma t_flip_ok : check t_flip = true.
Proof. reflexivity. Qed.


Section Flip.
  Context {F : FloatOps}.

  Lemma len_edge_run : forall h e, topo_ok h -> In e (g_edges h) -> exists l, len_edge h e = Ok l.
  Proof.
    intros h e T He. destruct (t_edge_nodes h T e He) as (L & _). unfold len_edge.
    destruct (e_nodes h e) as [|a [|b [|c r]]]; try discriminate L. eauto.
  Qed.

  Lemma max_edge_loop_run : forall h es best len, topo_ok h -> incl es (g_edges h) ->
    exists e, max_edge_loop h best len es = Ok e /\ (e = best \/ In e es).
  Proof.
    intros h es. induction es as [|e es IH]; intros best len T Hi; cbn; [eauto|].
    destruct (len_edge_run h e T (Hi e (or_introl eq_refl))) as (l & ->). cbn.
    assert (Hi' : incl es (g_edges h)) by (intros x Hx; apply Hi; right; auto).
    destruct (vltb len l).
    - destruct (IH e l T Hi') as (x & -> & [->|Hx]); eauto.
    - destruct (IH best len T Hi') as (x & -> & [->|Hx]); eauto.
  Qed.

  Lemma max_edge_run : forall h f, topo_ok h -> In f (g_faces h) ->
    exists e, max_edge_from_face f h = (Ok e, h) /\ In e (f_edges h f).
  Proof.
    intros h f T Hf. destruct (t_face_edges h T f Hf) as (L & _ & Hi). unfold max_edge_from_face.
    destruct (f_edges h f) as [|e r]; [discriminate L|].
    destruct (len_edge_run h e T (Hi e (or_introl eq_refl))) as (l & ->). cbn.
    destruct (max_edge_loop_run h r e l T) as (x & -> & H).
    { intros x Hx. apply Hi. right; auto. }
    exists x. split; auto. cbn. destruct H; auto.
  Qed.

  Theorem collapse_face_any : forall h face edge other n1 n2 n3 n4, sound h -> In face (g_faces h) ->
    max_edge_from_face face h = (Ok edge, h) -> Permutation (e_faces h edge) [face; other] ->
    e_nodes h edge = [n1; n2] ->
    In n3 (f_nodes h face) -> n3 <> n1 -> n3 <> n2 -> In n4 (f_nodes h other) -> n4 <> n1 -> n4 <> n2 -> n3 <> n4 ->
    (forall e, In e (g_edges h) -> ~ (In n3 (e_nodes h e) /\ In n4 (e_nodes h e))) ->
    exists z h' e g1 g2, collapse_face face h = (Ok true, h') /\ f_zone h face = Some z /\
      rebuilt z h h' (mkPatch [face; other] [edge] [] [(e, (n3, n4))] [(g1, (n1, n3, n4), face); (g2, (n2, n3, n4), face)]).
  Proof.
    intros h face edge other n1 n2 n3 n4 Co Hf Mx Ef En I3 X1 X2 I4 X3 X4 X5 Hu.
    pose proof Co as (T & ZO & ZL & Nu & Me).
    destruct (max_edge_run h face T Hf) as (e' & Mx' & Ie1). rewrite Mx in Mx'. injection Mx' as <-.
    assert (He : In edge (g_edges h)) by (apply (t_face_edges h T face Hf); auto).
    assert (Df : face <> other).
    { destruct (t_edge_faces h T edge He) as (_ & N & _). apply (Permutation_NoDup Ef) in N.
      apply NoDup_cons_iff in N as [K _]. intros ->. apply K. left; auto. }
    destruct (t_edge_nodes h T edge He) as (_ & Nen & _). rewrite En in Nen.
    assert (D12 : n1 <> n2) by (intros ->; apply NoDup_cons_iff in Nen as [K _]; apply K; left; auto).
    assert (S1 : forall f n, In f (e_faces h edge) -> In n (f_nodes h f) -> n <> n1 -> n <> n2 ->
      forall m e1 e2 y, border_shape h edge f n1 n2 m e1 e2 y -> m = n).
    { intros f n _ K K1 K2 m e1 e2 y B. apply (Permutation_in _ (bs_fn _ _ _ _ _ _ _ _ _ B)) in K. cbn in K. intuition congruence. }
    assert (F1 : In face (e_faces h edge)) by (apply (Permutation_in _ (Permutation_sym Ef)); cbn; auto).
    assert (F2 : In other (e_faces h edge)) by (apply (Permutation_in _ (Permutation_sym Ef)); cbn; auto).
    assert (Hg : In other (g_faces h)) by (apply (t_edge_faces h T edge He); auto).
    destruct (pair_any h edge face other n1 n2 T ZO He) as (m3 & m4 & e1 & e3 & e2 & e4 & z & w & Ps); auto.
    { destruct (face_at h edge face n1 n2 T ZO He F1 En) as (a3 & a4 & a5 & a6 & A).
      destruct (face_at h edge other n1 n2 T ZO He F2 En) as (b3 & b4 & b5 & b6 & B).
      pose proof (S1 _ _ F1 I3 X1 X2 _ _ _ _ A) as ->. pose proof (S1 _ _ F2 I4 X3 X4 _ _ _ _ B) as ->.
      pose proof (bs_fn _ _ _ _ _ _ _ _ _ A) as PA. pose proof (bs_fn _ _ _ _ _ _ _ _ _ B) as PB.
      assert (Y : forall f m, Permutation (f_nodes h f) [n1; n2; m] -> forall x, In x (f_nodes h f) -> x <> n1 -> x <> n2 -> x = m).
      { intros f m P x K K1 K2. apply (Permutation_in _ P) in K. cbn in K. intuition congruence. }
      intros a b Hab [<-|[<-|[]]] [<-|[<-|[]]] K; try congruence; [apply K in I3|apply K in I4]; apply X5.
      - apply (Y other n4 PB); auto.
      - symmetry. apply (Y face n3 PA); auto. }
    pose proof (S1 _ _ F1 I3 X1 X2 _ _ _ _ (ps_1 _ _ _ _ _ _ _ _ _ _ _ _ _ _ Ps)) as ->.
    pose proof (S1 _ _ F2 I4 X3 X4 _ _ _ _ (ps_2 _ _ _ _ _ _ _ _ _ _ _ _ _ _ Ps)) as ->. clear S1.
    pose proof (pair_fits t_flip h _ _ _ _ _ _ _ _ _ _ _ _ _ Ps Ef eq_refl eq_refl eq_refl eq_refl) as Fi.
    pose proof Ps as [B1 B2 Nn Ne Nf].
    pose proof B1 as [(H1 & H2 & H3) (G0 & G1 & G2) _ Nn1 Ne1 Pf1 Pe1 _ P13 P23 [Hz Ez]].
    pose proof B2 as [(_ & _ & H4) (_ & G3 & G4) _ Nn2 Ne2 Pf2 Pe2 _ P14 P24 [_ Ez2]].
    apply NoDup3 in Ne1 as (De1 & De2 & _). apply NoDup3 in Ne2 as (De3 & De4 & _).
    assert (Ie2 : In edge (f_edges h other)) by (apply (t_ef h T); auto).
    assert (Kp : keep [face] (e_faces h edge) = [other]).
    { apply Permutation_sym, Permutation_length_2_inv in Ef. assert (K : other =? face = false) by (apply Nat.eqb_neq; auto).
      unfold keep. destruct Ef as [-> | ->]; cbn; rewrite Nat.eqb_refl, K; auto. }
    assert (R : exists h', collapse_face face h = (Ok true, h') /\ exists a, Inv h a h' /\
      matches t_flip h [n1; n2; n3; n4] [edge; e1; e3; e2; e4] [face; other] a z [] [0; 0]).
    { unfold collapse_face. rewrite !bind_gets, Ez, (bind_run _ _ _ _ _ _ _ Mx), bind_gets.
      rewrite (Permutation_length Ef). cbn [length Nat.eqb].
      pose proof (inv_start h T) as I.
      one_step (del_face_inv h T ZO acc0 h face I eq_refl eq_refl eq_refl eq_refl Hf (fun K => K) (fun e _ => iff_refl False)) I.
      pose proof (i_e_faces _ _ _ I edge He (fun K => K)) as Xe. cbn [aD aEF sel filter map] in Xe.
      edge_step (del_edge_inv h T ZL _ _ edge n1 n2 I eq_refl eq_refl eq_refl eq_refl He (fun K => K) (fun f K => K) En) I.
      rewrite Kp in I. cbn [map] in I.
      rewrite bind_gets, XX, Xe, Kp. cbn [sel filter map app]. rewrite bind_item0.
      rewrite bind_gets, (f_glo_old h Co _ _ _ I Hg).
      one_step (del_face_inv h T ZO _ _ other I eq_refl eq_refl eq_refl eq_refl Hg
        (fun K => match K with or_introl E => Df E | or_intror K => K end)
        (fun e _ => eq_ind_r (fun l => In e l <-> In e [edge]) (iff_refl _) (sel_one_same other edge))) I.
      do 2 one_step (new_face_inv h _ _ (f_data h face) I) I.
      rewrite bind_gets, (e_nodes_old h Co _ _ _ I He), En, bind_item0, bind_item1.
      rewrite (third_run _ _ face n1 n2 n3) by (auto; rewrite (f_nodes_old h Co _ _ _ I Hf); auto).
      rewrite (third_run _ _ other n1 n2 n4) by (auto; rewrite (f_nodes_old h Co _ _ _ I Hg); auto).
      mid_chain T I.
      assert (Rm1 : sel [(other, edge); (face, edge)] face = [edge]).
      { change [(other, edge); (face, edge)] with ([(other, edge)] ++ [(face, edge)]). rewrite sel_app, sel_one_same, sel_one_other; auto. }
      assert (Rm2 : sel [(other, edge); (face, edge)] other = [edge]).
      { change [(other, edge); (face, edge)] with ([(other, edge)] ++ [(face, edge)]). rewrite sel_app, sel_one_same, sel_one_other; auto. }
      erewrite (proj1 (two_edges h edge face n1 n2 n3 e1 e3 z _ _ _ _ Co B1 I Rm1)).
      erewrite (proj1 (two_edges h edge other n1 n2 n4 e2 e4 w _ _ _ _ Co B2 I Rm2)).
      erewrite (proj2 (two_edges h edge face n1 n2 n3 e1 e3 z _ _ _ _ Co B1 I Rm1)).
      erewrite (proj2 (two_edges h edge other n1 n2 n4 e2 e4 w _ _ _ _ Co B2 I Rm2)).
      one_step (new_edge_inv h T _ _ I) I.
      rewrite bind_gets, (e_glo_old h Co _ _ _ I He).
      last_chain Co t_flip_ok Fi I.
      unfold some_zone. rewrite bind_lift_ok.
      mid_chain T I.
      eexists. split; [reflexivity|]. eexists. split; [exact I|].
      constructor; acc_simpl; try reflexivity.
      - no_rm.
      - split; reflexivity.
      - split; [reflexivity|]. split; [reflexivity|]. cbn. intros i Hi. intuition lia.
      - eexists. split; [apply Permutation_refl|reflexivity].
      - exact Hz.
      - split; [constructor|]. intros q []. }
    destruct R as (h' & E & a & I & Ma). exists z, h'.
    pose proof (done_applied t_flip h _ _ _ Co t_flip_ok Fi a z _ _ h' I Ma) as Ap.
    assert (U : forall e1 e2, In e1 (pAE t_flip h) -> In e2 (g_edges h) -> ~ In e2 (pDE t_flip [edge; e1; e3; e2; e4]) ->
      incl (e_nodes h' e1) (e_nodes h e2) -> False).
    { intros x y Hx Hy _ Hi. apply (Hu y Hy). destruct Hx as [<-|[]].
      destruct (ap_new_e _ _ _ _ _ _ _ _ _ _ Ap (next_e h)) as [K _]; [left; auto|].
      rewrite K in Hi. cbn in Hi. rewrite !Nat.eqb_refl in Hi. split; apply Hi; cbn; auto. }
    do 3 eexists. split; [exact E|].
    split; [exact Ez|].
    exact (done_all t_flip h _ _ _ Co t_flip_ok Fi a z _ _ h' I Ma U).
  Qed.

  Theorem collapse_face_flip : forall h face edge other n1 n2 n3 n4, consistent h -> In face (g_faces h) ->
    max_edge_from_face face h = (Ok edge, h) -> Permutation (e_faces h edge) [face; other] ->
    e_nodes h edge = [n1; n2] -> f_zone h face = f_zone h other ->
    In n3 (f_nodes h face) -> n3 <> n1 -> n3 <> n2 -> In n4 (f_nodes h other) -> n4 <> n1 -> n4 <> n2 -> n3 <> n4 ->
    (forall e, In e (g_edges h) -> ~ (In n3 (e_nodes h e) /\ In n4 (e_nodes h e))) ->
    exists h' e g1 g2, collapse_face face h = (Ok true, h') /\ consistent h' /\
      patched h h' (mkPatch [face; other] [edge] [] [(e, (n3, n4))] [(g1, (n1, n3, n4), face); (g2, (n2, n3, n4), face)]).
  Proof.
    intros h face edge other n1 n2 n3 n4 Co Hf Mx Ef En Fz I3 X1 X2 I4 X3 X4 X5 Hu.
    destruct (collapse_face_any h face edge other n1 n2 n3 n4 (consistent_sound h Co) Hf Mx Ef En I3 X1 X2 I4 X3 X4 X5 Hu)
      as (z & h' & e & g1 & g2 & E & Ez & R).
    exists h', e, g1, g2. split; [exact E|]. apply (back_same z); auto. exact (one_of_two h z face other Ez Fz).
  Qed.
End Flip.
