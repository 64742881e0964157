(** The contraction of an edge from the beginning to the end. *)

From Coq Require Import ZArith NArith Ascii String Bool Lia List Permutation.
From Verif Require Import Py PyLemmas Heap HeapLemmas GridModel GridSpec DecompProofs LoadPlace Atomic AtomicSpec PatchDone
  PatchProofs PatchRun PatchDel AtomicRun AtomicCut CollapseSpec CollapseRun CollapseNode CollapseRun2.
Import ListNotations.
Open Scope list_scope.
Open Scope nat_scope.

Section Main.
  Context {F : FloatOps}.
  Variable h : heap.
  Variables edge f1 f2 n1 n2 n3 n4 e13 e23 e14 e24 z : nat.
  Hypothesis Co : consistent h.
  Hypothesis Ps : pair_shape h edge f1 f2 n1 n2 n3 n4 e13 e23 e14 e24 z z.
  Hypothesis Ef : e_faces h edge = [f1; f2].
  Hypothesis Bn : NoDup (g_bag h).
  Hypothesis Pt : forall n, In n (g_nodes h) -> n <> n1 -> n_rc h n <> rnd (vmid (n_p h n1) (n_p h n2)).
  Hypothesis Zo : forall g, In g (g_faces h) -> In n1 (f_nodes h g) \/ In n2 (f_nodes h g) -> f_zone h g = Some z.
  Hypothesis Third : exists g, In g (g_faces h) /\ g <> f1 /\ g <> f2 /\ In n2 (f_nodes h g).
  Hypothesis Many : 4 <= length (g_faces h).

  Let D := [f1; f2].
  Let DE := [edge; e23; e24].
  Let G1 := keep D (e_faces h e23).
  Let G2 := keep D (e_faces h e24).
  Let p := vmid (n_p h n1) (n_p h n2).

  (** The lists after the contraction. *)
  Record done (h' : heap) : Prop := {
    d_ne : forall n, In n (g_nodes h) -> n_edges h' n = keep DE (n_edges h n) ++ if Nat.eqb n n1 then keep DE (n_edges h n2) else [];
    d_nf : forall n, In n (g_nodes h) -> n_faces h' n = keep D (n_faces h n) ++ if Nat.eqb n n1 then keep D (n_faces h n2) else [];
    d_en : forall e, In e (g_edges h) -> ~ In e DE -> e_nodes h' e =
      if in_dec Nat.eq_dec n2 (e_nodes h e) then keep [n2] (e_nodes h e) ++ [n1] else e_nodes h e;
    d_ef : forall e, In e (g_edges h) -> ~ In e DE -> e_faces h' e = keep D (e_faces h e) ++
      (if Nat.eqb e e13 then G1 else []) ++ (if Nat.eqb e e14 then G2 else []);
    d_fn : forall f, In f (g_faces h) -> ~ In f D -> f_nodes h' f =
      if in_dec Nat.eq_dec n2 (f_nodes h f) then keep [n2] (f_nodes h f) ++ [n1] else f_nodes h f;
    d_fe : forall f, In f (g_faces h) -> ~ In f D -> f_edges h' f = keep DE (f_edges h f) ++
      (if in_dec Nat.eq_dec f G1 then [e13] else []) ++ (if in_dec Nat.eq_dec f G2 then [e14] else []);
    d_zn : forall y, In y (g_zones h) -> z_nodes h' y = if Nat.eqb y z then keep [n2] (z_nodes h y) else z_nodes h y;
    d_ze : forall y, In y (g_zones h) -> z_edges h' y = keep DE (z_edges h y);
    d_zf : forall y, In y (g_zones h) -> z_faces h' y = keep D (z_faces h y);
    d_gn : g_nodes h' = keep [n2] (g_nodes h);
    d_ge : g_edges h' = keep DE (g_edges h);
    d_gf : g_faces h' = keep D (g_faces h);
    d_p : n_p h' = upd (n_p h) n1 p;
    d_rc : n_rc h' = upd (n_rc h) n1 (rnd p);
    d_bag : NoDup (g_bag h') /\ forall r, In r (g_bag h') <-> (In r (g_bag h) /\ r <> n_rc h n1 \/ r = rnd p) /\ r <> n_rc h n2;
    d_same : (n_border h' = n_border h /\ f_data h' = f_data h /\ f_zone h' = f_zone h) /\
      (z_id h' = z_id h /\ z_name h' = z_name h /\ z_fixed h' = z_fixed h) /\
      (next_n h' = next_n h /\ next_e h' = next_e h /\ next_f h' = next_f h /\ next_z h' = next_z h) /\
      g_name h' = g_name h /\ g_zones h' = g_zones h /\ g_nborder h' = g_nborder h
  }.

  Lemma last_two : forall l : list nat, 2 <= length l -> exists l0 a b, l = l0 ++ [a; b].
  Proof.
    intros l L. destruct (rev l) as [|b [|a r]] eqn:E.
    - apply (f_equal (@length nat)) in E. rewrite rev_length in E. cbn in E. lia.
    - apply (f_equal (@length nat)) in E. rewrite rev_length in E. cbn in E. lia.
    - exists (rev r), a, b. rewrite <- (rev_involutive l), E. cbn. rewrite <- app_assoc. auto.
  Qed.

  Lemma last_three : forall l : list nat, 3 <= length l -> exists l0 a b c, l = l0 ++ [a; b; c].
  Proof.
    intros l L. destruct (last_two l ltac:(lia)) as (l0 & b & c & ->). rewrite app_length in L. cbn in L.
    destruct (rev l0) as [|a r] eqn:E.
    - apply (f_equal (@length nat)) in E. rewrite rev_length in E. cbn in E. lia.
    - exists (rev r), a, b, c. rewrite <- (rev_involutive l0), E. cbn. rewrite <- app_assoc. auto.
  Qed.

  Lemma last_one : forall l : list nat, 1 <= length l -> exists l0 a, l = l0 ++ [a].
  Proof.
    intros l L. destruct (rev l) as [|b r] eqn:E.
    - apply (f_equal (@length nat)) in E. rewrite rev_length in E. cbn in E. lia.
    - exists (rev r), b. rewrite <- (rev_involutive l), E. cbn. auto.
  Qed.

  Lemma item_end_run : forall B l0 b k (m : nat -> M B) hh x, nth_error (rev b) (k - 1) = Some x ->
    bind (item_end k (l0 ++ b)) m hh = m x hh.
  Proof.
    intros B l0 b k m hh x E. unfold item_end. rewrite rev_app_distr.
    rewrite nth_error_app1; [rewrite E; reflexivity|]. apply nth_error_Some. congruence.
  Qed.

  Lemma three_edges : 3 <= length (keep DE (g_edges h)).
  Proof.
    pose proof (cz_topo h Co) as T. destruct Third as (g & Hg & D1 & D2 & K). pose proof Ps as [B1 B2 Nn Ne _].
    destruct (bs_edges _ _ _ _ _ _ _ _ _ B1) as (R0 & R1 & R2). destruct (bs_edges _ _ _ _ _ _ _ _ _ B2) as (_ & R3 & R4).
    destruct (t_face_nodes h T g Hg) as (L & N & Ii).
    assert (X : exists a b, a <> b /\ a <> n2 /\ b <> n2 /\ In a (f_nodes h g) /\ In b (f_nodes h g)).
    { destruct (f_nodes h g) as [|u [|v [|w [|? ?]]]]; try discriminate L. apply NoDup3 in N as (N1 & N2 & N3).
      destruct K as [<-|[<-|[<-|[]]]].
      - exists v, w. cbn. auto 10.
      - exists u, w. cbn. auto 10.
      - exists u, v. cbn. auto 10. }
    destruct X as (a & b & Dab & Da & Db & Ia & Ib).
    destruct (t_pairs h T g a b Hg Ia Ib Dab) as (e & A1 & A2 & A3).
    assert (He : In e (g_edges h)) by (apply (t_face_edges h T g Hg); auto).
    destruct (t_edge_nodes h T e He) as (Le & Nee & _).
    assert (Pe : Permutation (e_nodes h e) [a; b]) by (apply perm2; auto).
    assert (No2 : ~ In n2 (e_nodes h e)) by (intros J; apply (Permutation_in _ Pe) in J; cbn in J; intuition congruence).
    assert (No1 : ~ In n1 (e_nodes h e)).
    { intros J. destruct (both_ends h edge f1 f2 n1 n2 n3 n4 e13 e23 e14 e24 z Co Ps Ef g Hg) as [Q|Q]; auto.
      apply (t_tri h T g e Hg A1). auto. }
    pose proof (bs_e _ _ _ _ _ _ _ _ _ B1) as En.
    destruct (bs_e13_not2 _ _ _ _ _ _ _ _ _ B1) as (_ & _ & K13 & K23).
    destruct (bs_e13_not2 _ _ _ _ _ _ _ _ _ B2) as (_ & _ & K14 & K24).
    assert (Ne' : e13 <> edge /\ e14 <> edge /\ e13 <> e23 /\ e14 <> e23 /\ e13 <> e24 /\ e14 <> e24 /\ e13 <> e14).
    { repeat (apply NoDup_cons_iff in Ne as [? Ne]). cbn in *. intuition congruence. }
    assert (Nd : NoDup [e13; e14; e]).
    { apply NoDup3. split; [tauto|]. split; intros Q; subst e; contradiction. }
    change 3 with (length [e13; e14; e]). apply NoDup_incl_length; [exact Nd|].
    intros x [<-|[<-|[<-|[]]]]; apply keep_In; (split; [auto|]); cbn.
    - intuition congruence.
    - intuition congruence.
    - intros [Q|[Q|[Q|[]]]]; subst; [|contradiction|contradiction]. rewrite En in No2. apply No2. cbn. auto.
  Qed.

  Theorem collapse_run : exists h' lf a b le c d e ln n,
    collapse_edge edge h = (Ok true, h') /\ done h' /\
    keep D (g_faces h) = lf ++ [a; b] /\ keep DE (g_edges h) = le ++ [c; d; e] /\ keep [n2] (g_nodes h) = ln ++ [n] /\
    f_glo h' = upd (upd (f_glo h) b (f_glo h f1)) a (f_glo h f2) /\
    e_glo h' = upd (upd (upd (e_glo h) e (e_glo h edge)) d (e_glo h e23)) c (e_glo h e24) /\
    n_glo h' = upd (n_glo h) n (n_glo h n2).
  Proof.
    pose proof (cz_topo h Co) as T. pose proof Ps as [B1 B2 Nn Ne Nf].
    destruct (bs_nodes _ _ _ _ _ _ _ _ _ B1) as (Q1 & Q2 & Q3).
    destruct (bs_edges _ _ _ _ _ _ _ _ _ B1) as (R0 & R1 & R2). destruct (bs_edges _ _ _ _ _ _ _ _ _ B2) as (_ & R3 & R4).
    destruct (face_facts h edge f1 f2 n1 n2 n3 n4 e13 e23 e14 e24 z Ps) as (H1 & H2 & Df & Z1 & Z2 & Hz).
    destruct (bs_e13_not2 _ _ _ _ _ _ _ _ _ B1) as (J1 & J2 & J3 & J4).
    destruct (bs_e13_not2 _ _ _ _ _ _ _ _ _ B2) as (J5 & J6 & J7 & J8).
    assert (Nn' : n1 <> n2) by (repeat (apply NoDup_cons_iff in Nn as [? Nn]); cbn in *; intuition congruence).
    assert (Ne' : NoDup [edge; e23; e24] /\ e13 <> edge /\ e14 <> edge /\ e13 <> e23 /\ e14 <> e23 /\ e13 <> e24 /\ e14 <> e24 /\ e13 <> e14).
    { rewrite NoDup3. repeat (apply NoDup_cons_iff in Ne as [? Ne]). cbn in *. intuition congruence. }
    destruct Ne' as (NDE & X1 & X2 & X3 & X4 & X5 & X6 & X7).
    destruct (last_two (keep D (g_faces h))) as (lf & a & b & Elf).
    { pose proof (len_keep2 h f1 f2 (PatchDone.consistent_sound h Co) H1 H2 Df). unfold D. lia. }
    destruct (last_three (keep DE (g_edges h)) three_edges) as (le & c & d & e & Ele).
    destruct (last_one (keep [n2] (g_nodes h))) as (ln & n & Eln).
    { destruct (keep [n2] (g_nodes h)) eqn:E; [|cbn; lia]. exfalso.
      assert (K : In n1 (keep [n2] (g_nodes h))) by (apply keep_In; split; [auto|intros [K|[]]; auto]). rewrite E in K. destruct K. }
    (* deletion of the faces and of the edge *)
    destruct (run3 h edge f1 f2 n1 n2 n3 n4 e13 e23 e14 e24 z Co Ps Ef) as (h3 & E3 & I3 & S3).
    destruct (run_move h edge f1 f2 n1 n2 n3 n4 e13 e23 e14 e24 z Co Ps Bn h3 I3 S3) as (h4 & E4 & I4 & P4 & Rc4 & Nb4 & Hb4).
    set (c3 := cde edge (cdf f2 (cdf f1 (start h)))) in *.
    assert (Fe3 : forall f, In f D -> cFE c3 f = f_edges h f).
    { intros f Hf. unfold c3. cs. rewrite Ef, keep2, keep_pair. destruct (in_dec Nat.eq_dec f []) as [[]|]; auto. }
    assert (En3 : cEN c3 = e_nodes h) by reflexivity.
    destruct (v_rm h c3 h4 f1 edge I4 H1) as (h5 & E5 & I5 & S5).
    { rewrite Fe3 by (left; auto). apply (t_face_edges h T f1 H1). }
    { rewrite Fe3 by (left; auto). apply (t_ef h T); auto. rewrite Ef. left; auto. }
    assert (Fe5 : Permutation (cFE (crm f1 edge c3) f1) [e13; e23]).
    { cs. rewrite Nat.eqb_refl, Fe3 by (left; auto). apply edges_left; [apply B1|apply (t_face_edges h T f1 H1)]. }
    destruct (v_rm h (crm f1 edge c3) h5 f2 edge I5 H2) as (h6 & E6 & I6 & S6).
    { cs. apply Nat.eqb_neq in Df. rewrite Nat.eqb_sym, Df, Fe3 by (right; left; auto). apply (t_face_edges h T f2 H2). }
    { cs. apply Nat.eqb_neq in Df. rewrite Nat.eqb_sym, Df, Fe3 by (right; left; auto). apply (t_ef h T); auto. rewrite Ef. right; left; auto. }
    set (c5 := crm f2 edge (crm f1 edge c3)) in *.
    assert (Fe6 : Permutation (cFE c5 f2) [e14; e24]).
    { unfold c5. cs. rewrite Nat.eqb_refl. assert (K : (f2 =? f1) = false) by (apply Nat.eqb_neq; auto). rewrite K, Fe3 by (right; left; auto).
      apply edges_left; [apply B2|apply (t_face_edges h T f2 H2)]. }
    assert (Fe6' : Permutation (cFE c5 f1) [e13; e23]).
    { unfold c5. cs. assert (K : (f1 =? f2) = false) by (apply Nat.eqb_neq; auto). rewrite K. exact Fe5. }
    assert (En5 : cEN c5 = e_nodes h) by reflexivity.
    assert (Ef5 : forall x, cEF c5 x = keep D (e_faces h x)) by (intros x; unfold c5, c3; cs; apply keep2).
    assert (Sl : forall x f, In x (g_edges h) -> In f D -> In x (f_edges h f) -> length (keep D (e_faces h x)) <= 1).
    { intros x f. apply (side_len h edge f1 f2 n1 n2 n3 n4 e13 e23 e14 e24 z Co Ps). }
    assert (L13 : length (keep D (e_faces h e13)) <= 1).
    { apply (Sl e13 f1); [auto|left; auto|]. apply (Permutation_in _ (Permutation_sym (bs_fe _ _ _ _ _ _ _ _ _ B1))). cbn; auto. }
    assert (L14 : length (keep D (e_faces h e14)) <= 1).
    { apply (Sl e14 f2); [auto|right; left; auto|]. apply (Permutation_in _ (Permutation_sym (bs_fe _ _ _ _ _ _ _ _ _ B2))). cbn; auto. }
    assert (L23 : length G1 <= 1).
    { apply (Sl e23 f1); [auto|left; auto|]. apply (Permutation_in _ (Permutation_sym (bs_fe _ _ _ _ _ _ _ _ _ B1))). cbn; auto. }
    assert (L24 : length G2 <= 1).
    { apply (Sl e24 f2); [auto|right; left; auto|]. apply (Permutation_in _ (Permutation_sym (bs_fe _ _ _ _ _ _ _ _ _ B2))). cbn; auto. }
    assert (GF1 : forall x, In x (g_edges h) -> forall g, In g (keep D (e_faces h x)) -> In g (g_faces h) /\ ~ In g D /\ In x (f_edges h g)).
    { intros x Hx g. apply (G_faces h f1 f2 Co). auto. }
    (* the links *)
    destruct (v_link_opt h c5 h6 f1 n1 e13 e23 G1 I6 R1 R2 H1) as (h7a & E7a & I7a & S7a).
    { intros g K. apply GF1 in K; tauto. }
    { rewrite Ef5. lia. }
    { exact Fe6'. }
    { rewrite En5. apply (t_edge_nodes h T e13 R1). }
    { rewrite En5. auto. }
    { rewrite En5. auto. }
    destruct (clo_same e13 G1 c5) as (_ & _ & Y3 & _).
    destruct (v_link_opt h (clo e13 G1 c5) h7a f2 n1 e14 e24 G2 I7a R3 R4 H2) as (h7 & E7 & I7 & S7).
    { intros g K. apply GF1 in K; tauto. }
    { rewrite clo_ef, Ef5. assert (K : (e14 =? e13) = false) by (apply Nat.eqb_neq; auto). rewrite K, app_nil_r. lia. }
    { rewrite clo_fe. rewrite firstn1 by auto. destruct (in_dec Nat.eq_dec f2 G1) as [J|J].
      - apply GF1 in J as (_ & J & _); auto. exfalso. apply J. right; left; auto.
      - rewrite app_nil_r. exact Fe6. }
    { rewrite Y3, En5. apply (t_edge_nodes h T e14 R3). }
    { rewrite Y3, En5. auto. }
    { rewrite Y3, En5. auto. }
    assert (Sp : spots h7 = spots h4) by congruence. unfold spots in Sp. injection Sp as Sp1 Sp2 Sp3.
    destruct (run_end h edge f1 f2 n1 n2 n3 n4 e13 e23 e14 e24 z Co Ps Ef Pt Zo Third h7 I7) as (h10 & E10 & I10 & P10 & Rc10 & Nb10 & Hb10).
    { rewrite Sp1. exact P4. }
    { rewrite Sp2. exact Rc4. }
    { rewrite Sp3. exact Nb4. }
    { rewrite Sp3. exact Hb4. }
    (* the numbers *)
    destruct (frame_fields _ _ (v_fr _ _ _ I10)) as ((M1 & M2 & M3 & M4 & M5 & M6) & Mz & Mn & Mg).
    set (FG := upd (upd (f_glo h) b (f_glo h f1)) a (f_glo h f2)).
    set (EG := upd (upd (upd (e_glo h) e (e_glo h edge)) d (e_glo h e23)) c (e_glo h e24)).
    set (NG := upd (n_glo h) n (n_glo h n2)).
    set (h' := set_n_glo (set_e_glo (set_f_glo h10 FG) EG) NG).
    assert (Gf : g_faces h10 = lf ++ [a; b]).
    { rewrite (v_gf _ _ _ I10). cs. destruct (c7_rest h edge f1 f2 e13 e23 e14 e24) as (_ & _ & _ & _ & _ & _ & _ & _ & _ & K).
      rewrite keep2 in K. rewrite <- Elf. exact K. }
    assert (Ge : g_edges h10 = le ++ [c; d; e]).
    { rewrite (v_ge _ _ _ I10). cs. destruct (c7_rest h edge f1 f2 e13 e23 e14 e24) as (_ & _ & _ & _ & _ & _ & _ & _ & K & _).
      rewrite <- Ele. etransitivity; [|apply keep3]. do 2 f_equal. exact K. }
    assert (Gn : g_nodes h10 = ln ++ [n]).
    { rewrite (v_gn _ _ _ I10). cs. destruct (c7_rest h edge f1 f2 e13 e23 e14 e24) as (_ & _ & _ & _ & _ & _ & _ & K & _).
      rewrite <- Eln. f_equal. exact K. }
    assert (Run : collapse_edge edge h = (Ok true, h')).
    { unfold collapse_edge. rewrite bind_gets. cbv beta. rewrite Ef. rewrite E3.
      rewrite bind_gets. cbv beta. rewrite (v_en _ _ _ I3 edge R0). change (cEN _ edge) with (e_nodes h edge).
      rewrite (bs_e _ _ _ _ _ _ _ _ _ B1), bind_item0, bind_item1. rewrite E4.
      rewrite (bind_run _ _ _ _ _ _ _ E5). cbv beta.
      rewrite (edge_with_run _ h5 f1 n2 e23 e13).
      2:{ rewrite (v_fe _ _ _ I5 f1 H1). etransitivity; [exact Fe5|]. constructor. }
      2:{ rewrite (v_en _ _ _ I5 e23 R2). apply (t_edge_nodes h T e23 R2). }
      2:{ rewrite (v_en _ _ _ I5 e23 R2). auto. }
      2:{ rewrite (v_en _ _ _ I5 e13 R1). auto. }
      rewrite (bind_run _ _ _ _ _ _ _ E6). cbv beta.
      rewrite (edge_with_run _ h6 f2 n2 e24 e14).
      2:{ rewrite (v_fe _ _ _ I6 f2 H2). etransitivity; [exact Fe6|]. constructor. }
      2:{ rewrite (v_en _ _ _ I6 e24 R4). apply (t_edge_nodes h T e24 R4). }
      2:{ rewrite (v_en _ _ _ I6 e24 R4). auto. }
      2:{ rewrite (v_en _ _ _ I6 e14 R3). auto. }
      rewrite bind_gets. cbv beta. rewrite (v_ef _ _ _ I6 e23 R2), Ef5. fold G1.
      rewrite (bind_run _ _ _ _ _ _ _ E7a). cbv beta. rewrite bind_gets. cbv beta.
      rewrite (v_ef _ _ _ I7a e24 R4). rewrite clo_ef, Ef5.
      assert (K : (e24 =? e13) = false) by (apply Nat.eqb_neq; auto). rewrite K, app_nil_r. clear K. fold G2.
      rewrite (bind_run _ _ _ _ _ _ _ E7). cbv beta. rewrite E10.
      assert (Nd1 : ~ In f1 (g_faces h10) /\ ~ In f2 (g_faces h10)).
      { rewrite Gf, <- Elf. split; intros J; apply keep_In in J as [_ J]; apply J; cbn; auto. }
      assert (Nd2 : ~ In edge (g_edges h10) /\ ~ In e23 (g_edges h10) /\ ~ In e24 (g_edges h10)).
      { rewrite Ge, <- Ele. repeat split; intros J; apply keep_In in J as [_ J]; apply J; cbn; auto. }
      rewrite bind_gets. cbv beta. rewrite Gf.
      rewrite (item_end_run _ lf [a; b] 1 _ _ b eq_refl). rewrite bind_modify. cbv beta.
      rewrite (item_end_run _ lf [a; b] 2 _ _ a eq_refl). rewrite bind_modify. cbv beta.
      rewrite bind_gets. cbv beta. cbn [g_edges set_f_glo]. rewrite Ge.
      rewrite (item_end_run _ le [c; d; e] 1 _ _ e eq_refl). rewrite bind_modify. cbv beta.
      rewrite (item_end_run _ le [c; d; e] 2 _ _ d eq_refl). rewrite bind_modify. cbv beta.
      rewrite (item_end_run _ le [c; d; e] 3 _ _ c eq_refl). rewrite bind_modify. cbv beta.
      rewrite bind_gets. cbv beta. cbn [g_nodes set_f_glo set_e_glo]. rewrite Gn.
      rewrite (item_end_run _ ln [n] 1 _ _ n eq_refl). rewrite bind_modify. cbv beta.
      unfold h', FG, EG, NG. cbn [f_glo e_glo n_glo set_f_glo set_e_glo set_n_glo].
      rewrite M1, M3, M4.
      assert (U1 : upd (f_glo h) b (f_glo h f1) f2 = f_glo h f2).
      { apply upd_other. intros ->. apply (proj2 Nd1). rewrite Gf. apply in_app_iff. cbn; auto. }
      assert (U2 : upd (e_glo h) e (e_glo h edge) e23 = e_glo h e23).
      { apply upd_other. intros ->. apply (proj1 (proj2 Nd2)). rewrite Ge. apply in_app_iff. cbn; auto. }
      assert (U3 : upd (upd (e_glo h) e (e_glo h edge)) d (e_glo h e23) e24 = e_glo h e24).
      { rewrite upd_other; [apply upd_other|].
        - intros ->. apply (proj2 (proj2 Nd2)). rewrite Ge. apply in_app_iff. cbn; auto.
        - intros ->. apply (proj2 (proj2 Nd2)). rewrite Ge. apply in_app_iff. cbn; auto. }
      rewrite U1, U2, U3. reflexivity. }
    exists h', lf, a, b, le, c, d, e, ln, n. split; [exact Run|]. split; [|split; [exact Elf|split; [exact Ele|split; [exact Eln|split; [reflexivity|split; reflexivity]]]]].
    destruct (c7_rest h edge f1 f2 e13 e23 e14 e24) as (A1 & A2 & A3 & A4 & A5 & A6 & A7 & A8 & A9 & A10).
    pose proof (c7_fe h edge f1 f2 n1 n2 n3 n4 e13 e23 e14 e24 z Co Ps Ef) as C7fe.
    pose proof (c7_ef h edge f1 f2 n1 n2 n3 n4 e13 e23 e14 e24 z Co Ps) as C7ef.
    fold D in C7fe, C7ef, A1, A2, A3, A4, A5, A6, A7, A8, A9, A10. fold G1 in C7fe, C7ef, A1, A2, A3, A4, A5, A6, A7, A8, A9, A10. fold G2 in C7fe, C7ef, A1, A2, A3, A4, A5, A6, A7, A8, A9, A10.
    fold c3 in C7fe, C7ef, A1, A2, A3, A4, A5, A6, A7, A8, A9, A10.
    fold c5 in C7fe, C7ef, A1, A2, A3, A4, A5, A6, A7, A8, A9, A10.
    fold D in I10. fold G1 in I10. fold G2 in I10. fold c3 in I10. fold c5 in I10.
    set (c7 := clo e14 G2 (clo e13 G1 c5)) in *.
    assert (NE2 : cNE (cde e24 (cde e23 c7)) = fun m => keep [e24] (keep [e23] (keep [edge] (n_edges h m)))).
    { cs. rewrite A1. reflexivity. }
    assert (NF2 : cNF (cde e24 (cde e23 c7)) = fun m => keep [f2] (keep [f1] (n_faces h m))).
    { cs. rewrite A2. reflexivity. }
    constructor.
    - intros m Hm. change (n_edges h' m) with (n_edges h10 m). rewrite (v_ne _ _ _ I10 m Hm).
      cbn [cdn crp cNE]. change (cNE (cde e24 (cde e23 c7))) with (cNE (cde e24 (cde e23 c7))). rewrite NE2. unfold DE. rewrite !keep3.
      destruct (Nat.eqb_spec m n1) as [->|]; [auto|rewrite app_nil_r; auto].
    - intros m Hm. change (n_faces h' m) with (n_faces h10 m). rewrite (v_nf _ _ _ I10 m Hm).
      cbn [cdn crp cNF]. rewrite NF2. unfold D. rewrite !keep2.
      destruct (Nat.eqb_spec m n1) as [->|]; [auto|rewrite app_nil_r; auto].
    - intros x Hx Hd. change (e_nodes h' x) with (e_nodes h10 x). rewrite (v_en _ _ _ I10 x Hx).
      cbn [cdn crp cEN]. rewrite NE2. cs. rewrite A3, keep3.
      destruct (in_dec Nat.eq_dec x (keep [edge; e23; e24] (n_edges h n2))) as [K|K]; destruct (in_dec Nat.eq_dec n2 (e_nodes h x)) as [K'|K']; auto; exfalso.
      + apply K'. apply keep_In in K as [K _]. apply (t_ne h T); auto.
      + apply K. apply keep_In. split; [apply (t_ne h T); auto|auto].
    - intros x Hx Hd. change (e_faces h' x) with (e_faces h10 x). rewrite (v_ef _ _ _ I10 x Hx).
      cbn [cdn crp cEF cde]. rewrite C7ef by auto. auto.
    - intros f Hf Hd. change (f_nodes h' f) with (f_nodes h10 f). rewrite (v_fn _ _ _ I10 f Hf).
      cbn [cdn crp cFN]. rewrite NF2. cs. rewrite A4, keep2.
      destruct (in_dec Nat.eq_dec f (keep [f1; f2] (n_faces h n2))) as [K|K]; destruct (in_dec Nat.eq_dec n2 (f_nodes h f)) as [K'|K']; auto; exfalso.
      + apply K'. apply keep_In in K as [K _]. apply (t_nf h T); auto.
      + apply K. apply keep_In. split; [apply (t_nf h T); auto|auto].
    - intros f Hf Hd. change (f_edges h' f) with (f_edges h10 f). rewrite (v_fe _ _ _ I10 f Hf).
      cbn [cdn crp cFE cde cEF].
      assert (F23 : cEF c7 e23 = G1).
      { rewrite C7ef by auto. assert (K : (e23 =? e13) = false) by (apply Nat.eqb_neq; auto). rewrite K.
        assert (K' : (e23 =? e14) = false) by (apply Nat.eqb_neq; auto). rewrite K'. cbn. rewrite app_nil_r. auto. }
      assert (F24 : cEF c7 e24 = G2).
      { rewrite C7ef by auto. assert (K : (e24 =? e13) = false) by (apply Nat.eqb_neq; auto). rewrite K.
        assert (K' : (e24 =? e14) = false) by (apply Nat.eqb_neq; auto). rewrite K'. cbn. rewrite app_nil_r. auto. }
      rewrite F23, F24, (C7fe f Hf Hd).
      assert (Fed : ~ In edge (f_edges h f)).
      { intros K. apply Hd. apply (t_ef h T) in K; auto. rewrite Ef in K. exact K. }
      assert (K3 : forall l, (forall x, In x l -> In x [e13; e14]) -> keep DE l = l).
      { intros l Hl. apply keep_id. intros x Hx K. apply Hl in Hx. unfold DE in K. cbn in Hx, K. intuition congruence. }
      set (l1 := if in_dec Nat.eq_dec f G1 then [e13] else []). set (l2 := if in_dec Nat.eq_dec f G2 then [e14] else []).
      assert (Kl : keep DE (l1 ++ l2) = l1 ++ l2).
      { apply K3. unfold l1, l2. intros x. destruct (in_dec Nat.eq_dec f G1), (in_dec Nat.eq_dec f G2); cbn; tauto. }
      transitivity (keep DE (f_edges h f ++ l1 ++ l2)); [|rewrite keep_app, Kl; auto].
      assert (In23 : ~ In f G1 -> ~ In e23 (f_edges h f ++ l1 ++ l2)).
      { intros J K. rewrite !in_app_iff in K. destruct K as [K|[K|K]].
        - apply J. unfold G1. apply keep_In. split; [apply (t_ef h T); auto|auto].
        - unfold l1 in K. destruct (in_dec Nat.eq_dec f G1); cbn in K; intuition.
        - unfold l2 in K. destruct (in_dec Nat.eq_dec f G2); cbn in K; intuition. }
      assert (In24 : ~ In f G2 -> ~ In e24 (f_edges h f ++ l1 ++ l2)).
      { intros J K. rewrite !in_app_iff in K. destruct K as [K|[K|K]].
        - apply J. unfold G2. apply keep_In. split; [apply (t_ef h T); auto|auto].
        - unfold l1 in K. destruct (in_dec Nat.eq_dec f G1); cbn in K; intuition.
        - unfold l2 in K. destruct (in_dec Nat.eq_dec f G2); cbn in K; intuition. }
      assert (In0 : ~ In edge (f_edges h f ++ l1 ++ l2)).
      { intros K. rewrite !in_app_iff in K. destruct K as [K|[K|K]]; [auto| |].
        - unfold l1 in K. destruct (in_dec Nat.eq_dec f G1); cbn in K; intuition.
        - unfold l2 in K. destruct (in_dec Nat.eq_dec f G2); cbn in K; intuition. }
      revert In23 In24 In0. generalize (f_edges h f ++ l1 ++ l2). intros l K23 K24 K0.
      assert (Q0 : keep DE l = keep [e24] (keep [e23] l)).
      { unfold DE. rewrite <- keep3. rewrite (keep_id [edge]); [auto|]. intros x Hx [<-|[]]. auto. }
      assert (Q23 : ~ In f G1 -> keep [e23] l = l).
      { intros J. apply keep_id. intros x Hx [<-|[]]. apply K23; auto. }
      assert (Q24 : ~ In f G2 -> keep [e24] l = l).
      { intros J. apply keep_id. intros x Hx [<-|[]]. apply K24; auto. }
      assert (Q24' : ~ In f G2 -> keep [e24] (keep [e23] l) = keep [e23] l).
      { intros J. apply keep_id. intros x Hx [<-|[]]. apply keep_In in Hx as [Hx _]. apply K24; auto. }
      rewrite Q0. destruct (in_dec Nat.eq_dec f G1) as [i1|i1]; destruct (in_dec Nat.eq_dec f G2) as [i2|i2]; auto.
      + symmetry. auto.
      + rewrite Q23 by auto. auto.
      + rewrite Q24', Q23 by auto. auto.
    - intros y Hy. change (z_nodes h' y) with (z_nodes h10 y). rewrite (v_zn _ _ _ I10 y Hy). cs. rewrite A5. auto.
    - intros y Hy. change (z_edges h' y) with (z_edges h10 y). rewrite (v_ze _ _ _ I10 y Hy). cs. rewrite A6, keep3. auto.
    - intros y Hy. change (z_faces h' y) with (z_faces h10 y). rewrite (v_zf _ _ _ I10 y Hy). cs. rewrite A7, keep2. auto.
    - change (g_nodes h') with (g_nodes h10). rewrite Gn. auto.
    - change (g_edges h') with (g_edges h10). rewrite Ge. auto.
    - change (g_faces h') with (g_faces h10). rewrite Gf. auto.
    - exact P10.
    - exact Rc10.
    - split; [exact Nb10|exact Hb10].
    - split; [exact (conj M2 (conj M5 M6))|]. split; [exact Mz|]. split; [exact Mn|exact Mg].
  Qed.
End Main.
