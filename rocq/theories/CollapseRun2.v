(** The contraction of an edge runs through; the lists afterwards. *)

From Coq Require Import ZArith NArith Ascii String Bool Lia List Permutation.
From Verif Require Import Py PyLemmas Heap HeapLemmas GridModel GridSpec DecompProofs LoadPlace Atomic AtomicSpec PatchDone
  PatchProofs PatchRun PatchDel AtomicRun AtomicCut CollapseSpec CollapseRun CollapseNode.
Import ListNotations.
Open Scope list_scope.
Open Scope nat_scope.

Section Opt.
  Context {F : FloatOps}.
  Variable h0 : heap.

  (** Links of an edge with the first of some faces, if there is any. *)
  Definition clo (e : nat) (G : list nat) (c : cst) : cst := match G with [] => c | g :: _ => clk e g c end.

  Lemma v_link_opt : forall c h f n e d G, V h0 c h -> In e (g_edges h0) -> In d (g_edges h0) -> In f (g_faces h0) ->
    incl G (g_faces h0) -> length (cEF c e) <> 2 ->
    Permutation (cFE c f) [e; d] -> NoDup (cEN c e) -> In n (cEN c e) -> ~ In n (cEN c d) ->
    exists h', (match G with [] => ret tt | g :: _ => x <- edge_with f n ;; link_edge_face x g end) h = (Ok tt, h') /\
      V h0 (clo e G c) h' /\ spots h' = spots h.
  Proof.
    intros c h f n e d G I He Hd Hf HG L P Nd H1 H2. destruct G as [|g G].
    - exists h. split; [reflexivity|]. split; [exact I|reflexivity].
    - rewrite (edge_with_run _ h f n e d).
      + apply (v_link h0 c h e g I He); [apply HG; left; auto|auto].
      + rewrite (v_fe _ _ _ I) by auto. auto.
      + rewrite (v_en _ _ _ I) by auto. auto.
      + rewrite (v_en _ _ _ I) by auto. auto.
      + rewrite (v_en _ _ _ I) by auto. auto.
  Qed.

  Lemma clo_same : forall e G c, cNE (clo e G c) = cNE c /\ cNF (clo e G c) = cNF c /\ cEN (clo e G c) = cEN c /\
    cFN (clo e G c) = cFN c /\ cZN (clo e G c) = cZN c /\ cZE (clo e G c) = cZE c /\ cZF (clo e G c) = cZF c /\
    cGN (clo e G c) = cGN c /\ cGE (clo e G c) = cGE c /\ cGF (clo e G c) = cGF c.
  Proof. intros e [|g G] c; cbn; repeat split; auto. Qed.

  Lemma clo_ef : forall e G c d, cEF (clo e G c) d = cEF c d ++ if Nat.eqb d e then firstn 1 G else [].
  Proof. intros e [|g G] c d; cbn; destruct (d =? e); cbn; rewrite ?app_nil_r; auto. Qed.

  Lemma clo_fe : forall e G c f, cFE (clo e G c) f = cFE c f ++ if in_dec Nat.eq_dec f (firstn 1 G) then [e] else [].
  Proof.
    intros e [|g G] c f; cbn [clo clk cFE firstn].
    - destruct (in_dec Nat.eq_dec f []) as [[]|_]. rewrite app_nil_r. auto.
    - destruct (Nat.eqb_spec f g) as [->|D]; destruct (in_dec Nat.eq_dec _ [g]) as [J|J]; rewrite ?app_nil_r; auto.
      + exfalso. apply J. left; auto.
      + exfalso. destruct J as [J|[]]. auto.
  Qed.
End Opt.

Ltac cs := cbn [cdf cde crm clk crp cdn start cNE cNF cEN cEF cFN cFE cZN cZE cZF cGN cGE cGF].

Lemma keep2 : forall a b l, keep [b] (keep [a] l) = keep [a; b] l.
Proof. intros a b l. rewrite keep_keep. auto. Qed.

Lemma keep3 : forall a b c l, keep [c] (keep [b] (keep [a] l)) = keep [a; b; c] l.
Proof. intros a b c l. rewrite !keep_keep. auto. Qed.

Section Collapse.
  Context {F : FloatOps}.
  Variable h : heap.
  Variables edge f1 f2 n1 n2 n3 n4 e13 e23 e14 e24 z : nat.
  Hypothesis Co : consistent h.
  Hypothesis Ps : pair_shape h edge f1 f2 n1 n2 n3 n4 e13 e23 e14 e24 z z.
  Hypothesis Ef : e_faces h edge = [f1; f2].
  Hypothesis Bn : NoDup (g_bag h).
  Hypothesis Pt : forall n, In n (g_nodes h) -> n <> n1 -> n_rc h n <> rnd (vmid (n_p h n1) (n_p h n2)).
  Hypothesis Zo : forall g, In g (g_faces h) -> In n1 (f_nodes h g) \/ In n2 (f_nodes h g) -> f_zone h g = Some z.
  Hypothesis Third : exists g, In g (g_faces h) /\ g <> f1 /\ g <> f2 /\ In n2 (f_nodes h g).

  Let D := [f1; f2].
  Let DE := [edge; e23; e24].
  Let G1 := keep D (e_faces h e23).
  Let G2 := keep D (e_faces h e24).

  Lemma cz_topo : topo_ok h. Proof. apply Co. Qed.
  Lemma cz_zones : zones_ok h. Proof. apply Co. Qed.

  (** Both ends and the third corner of a side. *)
  Lemma both_ends : forall g, In g (g_faces h) -> In n1 (f_nodes h g) -> In n2 (f_nodes h g) -> g = f1 \/ g = f2.
  Proof.
    intros g Hg H1 H2. pose proof cz_topo as T. destruct Ps as [B1 _ Nn _ _].
    assert (Dn : n1 <> n2) by (apply NoDup_cons_iff in Nn as [K _]; intros E; apply K; left; auto).
    destruct (t_pairs h T g n1 n2 Hg H1 H2 Dn) as (e & A1 & A2 & A3).
    destruct (t_face_edges h T g Hg) as (_ & _ & Ie).
    assert (e = edge).
    { symmetry. apply (t_uniq h T); [apply B1|auto|]. rewrite (bs_e _ _ _ _ _ _ _ _ _ B1). intros x [<-|[<-|[]]]; auto. }
    subst e. assert (K : In g (e_faces h edge)) by (apply (t_ef h T); auto; apply B1).
    rewrite Ef in K. destruct K as [K|[K|[]]]; auto.
  Qed.

  Lemma ends_in : forall e a b, Permutation (e_nodes h e) [a; b] -> In a (e_nodes h e) /\ In b (e_nodes h e).
  Proof. intros e a b P. split; apply (Permutation_in _ (Permutation_sym P)); cbn; auto. Qed.

  (** Surviving faces have at most one of the sides of a deleted face. *)
  Lemma one_side : forall g, In g (g_faces h) -> ~ In g D -> (In e23 (f_edges h g) \/ In e24 (f_edges h g)) ->
    ~ In e13 (f_edges h g) /\ ~ In e14 (f_edges h g).
  Proof.
    intros g Hg Hd H. pose proof cz_topo as T. destruct Ps as [B1 B2 _ _ _].
    assert (H2 : In n2 (f_nodes h g)).
    { destruct H as [H|H].
      - apply (t_tri h T g e23 Hg H). apply (ends_in _ _ _ (bs_e23 _ _ _ _ _ _ _ _ _ B1)).
      - apply (t_tri h T g e24 Hg H). apply (ends_in _ _ _ (bs_e23 _ _ _ _ _ _ _ _ _ B2)). }
    split; intros K; apply Hd.
    - destruct (both_ends g Hg) as [->| ->]; cbn; auto.
      apply (t_tri h T g e13 Hg K). apply (ends_in _ _ _ (bs_e13 _ _ _ _ _ _ _ _ _ B1)).
    - destruct (both_ends g Hg) as [->| ->]; cbn; auto.
      apply (t_tri h T g e14 Hg K). apply (ends_in _ _ _ (bs_e13 _ _ _ _ _ _ _ _ _ B2)).
  Qed.

  Lemma side_len : forall e f, In e (g_edges h) -> In f D -> In e (f_edges h f) -> length (keep D (e_faces h e)) <= 1.
  Proof.
    intros e f He Hf Hef. pose proof cz_topo as T. destruct Ps as [B1 B2 _ _ _].
    assert (Hg : In f (g_faces h)).
    { destruct Hf as [<-|[<-|[]]]; [apply B1|apply B2]. }
    destruct (t_edge_faces h T e He) as (L & N & _).
    assert (K : In f (e_faces h e)) by (apply (t_ef h T); auto).
    pose proof (keep_len1 f _ N K) as Q.
    assert (L2 : length (keep D (e_faces h e)) <= length (keep [f] (e_faces h e))).
    { unfold keep. clear - Hf. induction (e_faces h e) as [|x l IH]; [auto|]. cbn [filter].
      destruct (existsb (Nat.eqb x) D) eqn:E1; destruct (existsb (Nat.eqb x) [f]) eqn:E2; cbn [negb length]; try lia.
      exfalso. cbn in E2. rewrite orb_false_r in E2. apply Nat.eqb_eq in E2. subst x.
      assert (Q : existsb (Nat.eqb f) D = true) by (apply existsb_exists; exists f; split; [auto|apply Nat.eqb_refl]).
      rewrite Q in E1. discriminate E1. }
    lia.
  Qed.

  Lemma firstn1 : forall l : list nat, length l <= 1 -> firstn 1 l = l.
  Proof. intros [|x [|y l]]; cbn; auto. lia. Qed.

  Let c3 := cde edge (cdf f2 (cdf f1 (start h))).
  Let c5 := crm f2 edge (crm f1 edge c3).
  Let c7 := clo e14 G2 (clo e13 G1 c5).
  Let c8 := cde e24 (cde e23 c7).
  Let c10 := cdn n2 z (crp n2 n1 c8).

  Lemma face_facts : In f1 (g_faces h) /\ In f2 (g_faces h) /\ f1 <> f2 /\ f_zone h f1 = Some z /\ f_zone h f2 = Some z /\ In z (g_zones h).
  Proof.
    destruct Ps as [B1 B2 _ _ Nf]. split; [apply B1|]. split; [apply B2|]. split.
    - apply NoDup_cons_iff in Nf as [K _]. intros E. apply K. left; auto.
    - split; [apply B1|]. split; [apply B2|]. apply B1.
  Qed.

  Lemma zf_iff : forall f y, In f (g_faces h) -> f_zone h f = Some z -> In y (g_zones h) -> (In f (z_faces h y) <-> y = z).
  Proof.
    intros f y Hf Fz Hy. rewrite (zo_faces h cz_zones y f Hy). split; [intros [_ K]; congruence|intros ->; auto].
  Qed.

  Lemma run3 : exists h3, (forall B (k : M B), (del_face f1 ;;; del_face f2 ;;; del_edge edge ;;; k) h = k h3) /\
    V h c3 h3 /\ spots h3 = spots h.
  Proof.
    pose proof cz_topo as T. destruct face_facts as (H1 & H2 & Df & Z1 & Z2 & Hz). pose proof Ps as [B1 B2 Nn _ _].
    destruct (v_del_face h (start h) h f1 z (v_start h) H1 Hz Z1) as (h1 & E1 & V1 & S1).
    { apply (t_face_nodes h T f1 H1). }
    { apply (t_face_edges h T f1 H1). }
    { intros n Hn. split; [apply (t_node_faces h T n Hn)|]. apply (t_nf h T); auto. }
    { intros e He. split; [apply (t_edge_faces h T e He)|]. apply (t_ef h T); auto. }
    { intros y Hy. split; [apply (zo_faces_nd h cz_zones y Hy)|]. apply zf_iff; auto. }
    { apply (t_faces_nd h T). }
    { exact H1. }
    destruct (v_del_face h (cdf f1 (start h)) h1 f2 z V1 H2 Hz Z2) as (h2 & E2 & V2 & S2).
    { apply (t_face_nodes h T f2 H2). }
    { apply (t_face_edges h T f2 H2). }
    { intros n Hn. cs. split; [apply keep_NoDup, (t_node_faces h T n Hn)|]. intros K. apply keep_In in K as [K _]. apply (t_nf h T); auto. }
    { intros e He. cs. split; [apply keep_NoDup, (t_edge_faces h T e He)|]. intros K. apply keep_In in K as [K _]. apply (t_ef h T); auto. }
    { intros y Hy. cs. split; [apply keep_NoDup, (zo_faces_nd h cz_zones y Hy)|]. rewrite keep_In. rewrite (zf_iff f2 y H2 Z2 Hy).
      cbn. intuition congruence. }
    { cs. apply keep_NoDup, (t_faces_nd h T). }
    { cs. apply keep_In. split; auto. cbn. intuition. }
    destruct (bs_nodes _ _ _ _ _ _ _ _ _ B1) as (Q1 & Q2 & _).
    assert (He : In edge (g_edges h)) by apply B1.
    assert (Dn : n1 <> n2) by (apply NoDup_cons_iff in Nn as [K _]; intros E; apply K; left; auto).
    destruct (v_del_edge h (cdf f2 (cdf f1 (start h))) h2 edge n1 n2 V2 He) as (h3 & E3 & V3 & S3); auto.
    { apply (bs_e _ _ _ _ _ _ _ _ _ B1). }
    { intros n Hn. cs. split; [apply (t_node_edges h T n Hn)|]. rewrite (t_ne h T) by auto.
      rewrite (bs_e _ _ _ _ _ _ _ _ _ B1). cbn. intuition. }
    { cs. rewrite Ef, keep2, keep_pair. constructor. }
    { intros f. cs. rewrite Ef, keep2, keep_pair. intros []. }
    { intros y Hy. cs. apply (zone_edges_nd h (proj1 (proj2 (proj2 (PatchDone.consistent_sound h Co))))); auto. }
    { cs. apply (t_edges_nd h T). }
    exists h3. split; [|split; [exact V3|congruence]].
    intros B k. rewrite (bind_run _ _ _ _ _ _ _ E1). cbv beta. rewrite (bind_run _ _ _ _ _ _ _ E2). cbv beta.
    rewrite (bind_run _ _ _ _ _ _ _ E3). auto.
  Qed.

  Lemma c5_fe : forall f, In f (g_faces h) -> cFE c5 f = if in_dec Nat.eq_dec f D then keep [edge] (f_edges h f) else f_edges h f.
  Proof.
    intros f Hf. unfold c5, c3. cs. rewrite Ef, keep2, keep_pair. destruct face_facts as (_ & _ & Df & _).
    destruct (in_dec Nat.eq_dec f []) as [[]|_].
    destruct (Nat.eqb_spec f f2) as [N2|N2]; destruct (Nat.eqb_spec f f1) as [N1|N1];
      destruct (in_dec Nat.eq_dec f D) as [J|J]; auto; exfalso; cbn in J; intuition congruence.
  Qed.

  Lemma c7_fe : forall f, In f (g_faces h) -> ~ In f D -> cFE c7 f = f_edges h f ++
    (if in_dec Nat.eq_dec f G1 then [e13] else []) ++ (if in_dec Nat.eq_dec f G2 then [e14] else []).
  Proof.
    intros f Hf Hd. destruct face_facts as (H1 & H2 & _). pose proof Ps as [B1 B2 _ _ _].
    assert (L1 : length G1 <= 1).
    { apply (side_len e23 f1); [apply B1|left; auto|]. apply (Permutation_in _ (Permutation_sym (bs_fe _ _ _ _ _ _ _ _ _ B1))). cbn; auto. }
    assert (L2 : length G2 <= 1).
    { apply (side_len e24 f2); [apply B2|right; left; auto|]. apply (Permutation_in _ (Permutation_sym (bs_fe _ _ _ _ _ _ _ _ _ B2))). cbn; auto. }
    unfold c7. rewrite !clo_fe, !firstn1, c5_fe by auto. destruct (in_dec Nat.eq_dec f D); [contradiction|].
    rewrite app_assoc. auto.
  Qed.

  Lemma c7_ef : forall e, In e (g_edges h) -> cEF c7 e = keep D (e_faces h e) ++
    (if Nat.eqb e e13 then G1 else []) ++ (if Nat.eqb e e14 then G2 else []).
  Proof.
    intros e He. destruct face_facts as (H1 & H2 & _). pose proof Ps as [B1 B2 _ _ _].
    assert (L1 : length G1 <= 1).
    { apply (side_len e23 f1); [apply B1|left; auto|]. apply (Permutation_in _ (Permutation_sym (bs_fe _ _ _ _ _ _ _ _ _ B1))). cbn; auto. }
    assert (L2 : length G2 <= 1).
    { apply (side_len e24 f2); [apply B2|right; left; auto|]. apply (Permutation_in _ (Permutation_sym (bs_fe _ _ _ _ _ _ _ _ _ B2))). cbn; auto. }
    unfold c7. rewrite !clo_ef, !firstn1 by auto. unfold c5, c3. cs. rewrite keep2, app_assoc. auto.
  Qed.

  Lemma c7_rest : cNE c7 = (fun n => keep [edge] (n_edges h n)) /\ cNF c7 = (fun n => keep [f2] (keep [f1] (n_faces h n))) /\
    cEN c7 = e_nodes h /\ cFN c7 = f_nodes h /\ cZN c7 = z_nodes h /\ cZE c7 = (fun y => keep [edge] (z_edges h y)) /\
    cZF c7 = (fun y => keep [f2] (keep [f1] (z_faces h y))) /\
    cGN c7 = g_nodes h /\ cGE c7 = keep [edge] (g_edges h) /\ cGF c7 = keep [f2] (keep [f1] (g_faces h)).
  Proof.
    unfold c7. destruct (clo_same e14 G2 (clo e13 G1 c5)) as (A1 & A2 & A3 & A4 & A5 & A6 & A7 & A8 & A9 & A10).
    destruct (clo_same e13 G1 c5) as (C1 & C2 & C3 & C4 & C5 & C6 & C7 & C8 & C9 & C10).
    rewrite A1, A2, A3, A4, A5, A6, A7, A8, A9, A10, C1, C2, C3, C4, C5, C6, C7, C8, C9, C10. repeat split; reflexivity.
  Qed.

  Let p := vmid (n_p h n1) (n_p h n2).

  (** The first end moves to the middle of the edge. *)
  Lemma run_move : forall h3, V h c3 h3 -> spots h3 = spots h ->
    exists h4, (forall B (k : M B),
      (q <- gets (fun h => vmid (n_p h n1) (n_p h n2)) ;;
       r <- gets (fun h => n_rc h n1) ;;
       bag_remove r ;;;
       modify (fun h => set_n_p h (upd (n_p h) n1 q)) ;;;
       modify (fun h => set_n_rc h (upd (n_rc h) n1 (rnd q))) ;;;
       bag_add (rnd q) ;;; k) h3 = k h4) /\
      V h c3 h4 /\ n_p h4 = upd (n_p h) n1 p /\ n_rc h4 = upd (n_rc h) n1 (rnd p) /\ NoDup (g_bag h4) /\
      (forall r, In r (g_bag h4) <-> In r (g_bag h) /\ r <> n_rc h n1 \/ r = rnd p).
  Proof.
    intros h3 I E. unfold spots in E. injection E as Ep Er Eb.
    destruct Ps as [B1 _ _ _ _]. destruct (bs_nodes _ _ _ _ _ _ _ _ _ B1) as (Q1 & _).
    destruct (bag_remove_run h3 (n_rc h n1)) as (b & E & Nb & Hb).
    { rewrite Eb. auto. }
    { rewrite Eb. destruct Co as (_ & _ & _ & _ & Me). apply (proj1 (proj2 Me)). apply in_map. auto. }
    rewrite Eb in Hb.
    set (b' := if mem (rc_eqb (rnd p)) b then b else b ++ [rnd p]).
    exists (set_g_bag (set_n_rc (set_n_p (set_g_bag h3 b) (upd (n_p h) n1 p)) (upd (n_rc h) n1 (rnd p))) b').
    split.
    { intros B k. rewrite !bind_gets. cbv beta. rewrite Ep, Er. fold p. rewrite (bind_run _ _ _ _ _ _ _ E). cbv beta.
      rewrite !bind_modify. cbv beta. unfold bag_add. rewrite bind_modify. cbv beta. cbn [n_p n_rc g_bag set_g_bag set_n_p set_n_rc].
      rewrite Ep, Er. reflexivity. }
    split. { constructor; apply I. }
    split; [reflexivity|]. split; [reflexivity|]. cbn [g_bag set_g_bag].
    assert (M : mem (rc_eqb (rnd p)) b = true <-> In (rnd p) b).
    { unfold mem. rewrite existsb_exists. split.
      - intros (x & K1 & K2). apply rc_eqb_eq in K2. subst; auto.
      - intros K. exists (rnd p). split; auto. apply rc_eqb_eq. auto. }
    unfold b'. destruct (mem (rc_eqb (rnd p)) b) eqn:Em.
    - split; [exact Nb|]. intros r. rewrite Hb. split; [auto|]. intros [K| ->]; [auto|]. apply Hb, M. auto.
    - split.
      + assert (Nin : ~ In (rnd p) b) by (rewrite <- M; discriminate).
        clear - Nb Nin. induction Nb as [|x l Hx Nl IH]; cbn; [constructor; [intros []|constructor]|].
        constructor.
        * intros K. apply in_app_iff in K as [K|[K|[]]]; [auto|]. apply Nin. left; auto.
        * apply IH. intros K. apply Nin. right; auto.
      + intros r. rewrite in_app_iff, Hb. cbn. intuition.
  Qed.

  Lemma ne_facts : forall n, In n (g_nodes h) -> NoDup (n_edges h n).
  Proof. intros n Hn. apply (t_node_edges h cz_topo n Hn). Qed.

  Lemma split2 : forall e a b, Permutation (e_nodes h e) [a; b] -> e_nodes h e = [a; b] \/ e_nodes h e = [b; a].
  Proof. intros e a b P. apply Permutation_sym, Permutation_length_2_inv in P. auto. Qed.

  Lemma G_faces : forall e g, In e (g_edges h) -> In g (keep D (e_faces h e)) -> In g (g_faces h) /\ ~ In g D /\ In e (f_edges h g).
  Proof.
    intros e g He K. apply keep_In in K as [K1 K2]. destruct (t_edge_faces h cz_topo e He) as (_ & _ & Ii).
    split; [auto|]. split; [auto|]. apply (t_ef h cz_topo); auto.
  Qed.

  Lemma c7_fe_nd : forall g, In g (g_faces h) -> ~ In g D -> NoDup (cFE c7 g).
  Proof.
    intros g Hg Hd. rewrite c7_fe by auto. pose proof Ps as [B1 B2 _ Ne _].
    destruct (t_face_edges h cz_topo g Hg) as (_ & N & _).
    assert (D34 : e13 <> e14) by (intros K; repeat (apply NoDup_cons_iff in Ne as [? Ne]); subst; cbn in *; tauto).
    assert (S1 : In g G1 -> ~ In e13 (f_edges h g) /\ ~ In e14 (f_edges h g)).
    { intros K. apply G_faces in K as (K1 & K2 & K3); [|apply B1]. apply one_side; auto. }
    assert (S2 : In g G2 -> ~ In e13 (f_edges h g) /\ ~ In e14 (f_edges h g)).
    { intros K. apply G_faces in K as (K1 & K2 & K3); [|apply B2]. apply one_side; auto. }
    destruct (in_dec Nat.eq_dec g G1) as [J1|J1]; destruct (in_dec Nat.eq_dec g G2) as [J2|J2]; cbn [app]; rewrite ?app_nil_r; auto;
      apply NoDup_app3; auto; try (repeat constructor; cbn; intuition congruence).
    all: intros x K; cbn; intuition subst; tauto.
  Qed.

  (** From the state with the links to the deletion of the sides and of the second end. *)
  Lemma run_end : forall h7, V h c7 h7 -> n_p h7 = upd (n_p h) n1 p -> n_rc h7 = upd (n_rc h) n1 (rnd p) -> NoDup (g_bag h7) ->
    (forall r, In r (g_bag h7) <-> In r (g_bag h) /\ r <> n_rc h n1 \/ r = rnd p) ->
    exists h10, (forall B (k : M B), (del_edge e23 ;;; del_edge e24 ;;; replacing_node n2 n1 ;;; del_node n2 ;;; k) h7 = k h10) /\
      V h c10 h10 /\ n_p h10 = upd (n_p h) n1 p /\ n_rc h10 = upd (n_rc h) n1 (rnd p) /\ NoDup (g_bag h10) /\
      (forall r, In r (g_bag h10) <-> (In r (g_bag h) /\ r <> n_rc h n1 \/ r = rnd p) /\ r <> n_rc h n2).
  Proof.
    intros h7 I Ep Er Nb Hb. pose proof cz_topo as T. pose proof Ps as [B1 B2 Nn Ne Nf].
    destruct (bs_nodes _ _ _ _ _ _ _ _ _ B1) as (Q1 & Q2 & Q3). destruct (bs_nodes _ _ _ _ _ _ _ _ _ B2) as (_ & _ & Q4).
    destruct (bs_edges _ _ _ _ _ _ _ _ _ B1) as (R0 & R1 & R2). destruct (bs_edges _ _ _ _ _ _ _ _ _ B2) as (_ & R3 & R4).
    destruct face_facts as (H1 & H2 & Df & Z1 & Z2 & Hz).
    pose proof (bs_e23 _ _ _ _ _ _ _ _ _ B1) as P23. pose proof (bs_e23 _ _ _ _ _ _ _ _ _ B2) as P24.
    assert (Nn' : n1 <> n2 /\ n2 <> n3 /\ n2 <> n4 /\ n1 <> n3 /\ n1 <> n4).
    { repeat (apply NoDup_cons_iff in Nn as [? Nn]). cbn in *. intuition congruence. }
    destruct Nn' as (D12 & D23 & D24 & D13 & D14).
    assert (Ne' : edge <> e23 /\ edge <> e24 /\ e13 <> e23 /\ e23 <> e14 /\ e23 <> e24 /\ e13 <> e24 /\ e14 <> e24).
    { repeat (apply NoDup_cons_iff in Ne as [? Ne]). cbn in *. intuition congruence. }
    destruct Ne' as (X1 & X2 & X3 & X4 & X5 & X6 & X7).
    destruct c7_rest as (A1 & A2 & A3 & A4 & A5 & A6 & A7 & A8 & A9 & A10).
    (* first side *)
    assert (S23 : exists x y, e_nodes h e23 = [x; y] /\ x <> y /\ In x (g_nodes h) /\ In y (g_nodes h)).
    { destruct (split2 _ _ _ P23) as [K|K]; rewrite K; eauto 10. }
    assert (S24 : exists x y, e_nodes h e24 = [x; y] /\ x <> y /\ In x (g_nodes h) /\ In y (g_nodes h)).
    { destruct (split2 _ _ _ P24) as [K|K]; rewrite K; eauto 10. }
    destruct S23 as (x & y & Exy & Dxy & Hx & Hy). destruct S24 as (u & v & Euv & Duv & Hu & Hv).
    assert (F23 : cEF c7 e23 = G1).
    { rewrite c7_ef by auto. apply Nat.eqb_neq in X4, X3. rewrite X4. rewrite Nat.eqb_sym, X3. cbn. rewrite app_nil_r. auto. }
    assert (F24 : cEF c7 e24 = G2).
    { rewrite c7_ef by auto. apply Nat.eqb_neq in X6, X7. rewrite (Nat.eqb_sym e24 e13), X6, (Nat.eqb_sym e24 e14), X7. cbn. rewrite app_nil_r. auto. }
    destruct (v_del_edge h c7 h7 e23 x y I R2) as (h8 & E8 & I8 & S8); auto.
    { rewrite A3. auto. }
    { intros n Hn. rewrite A1. split; [apply keep_NoDup, ne_facts; auto|]. rewrite keep_In, (t_ne h T), Exy by auto. cbn. intuition. }
    { rewrite F23. apply keep_NoDup. apply (t_edge_faces h T e23 R2). }
    { intros f. rewrite F23. intros K. apply G_faces in K as (K1 & K2 & K3); auto. split; [auto|]. split; [apply c7_fe_nd; auto|].
      rewrite c7_fe by auto. apply in_app_iff. auto. }
    { intros q Hq. rewrite A6. apply keep_NoDup. apply (zone_edges_nd h (proj1 (proj2 (proj2 (PatchDone.consistent_sound h Co))))); auto. }
    { rewrite A9. apply keep_NoDup, (t_edges_nd h T). }
    { rewrite A9. apply keep_In. split; auto. cbn. intuition. }
    destruct (v_del_edge h (cde e23 c7) h8 e24 u v I8 R4) as (h9 & E9 & I9 & S9); auto.
    { cs. rewrite A3. auto. }
    { intros n Hn. cs. rewrite A1. split; [apply keep_NoDup, keep_NoDup, ne_facts; auto|]. rewrite !keep_In, (t_ne h T), Euv by auto. cbn. intuition. }
    { cs. rewrite F24. apply keep_NoDup. apply (t_edge_faces h T e24 R4). }
    { intros f. cs. rewrite F24, F23. intros K. apply G_faces in K as (K1 & K2 & K3); auto. split; [auto|].
      assert (Y : NoDup (cFE c7 f) /\ In e24 (cFE c7 f)).
      { split; [apply c7_fe_nd; auto|]. rewrite c7_fe by auto. apply in_app_iff. auto. }
      destruct Y as [Y1 Y2]. destruct (in_dec Nat.eq_dec f G1); [|auto]. split; [apply keep_NoDup; auto|].
      apply keep_In. split; auto. cbn. intuition. }
    { intros q Hq. cs. rewrite A6. apply keep_NoDup, keep_NoDup. apply (zone_edges_nd h (proj1 (proj2 (proj2 (PatchDone.consistent_sound h Co))))); auto. }
    { cs. rewrite A9. apply keep_NoDup, keep_NoDup, (t_edges_nd h T). }
    { cs. rewrite A9. apply keep_In. split; [apply keep_In; split; [auto|cbn; intuition]|cbn; intuition]. }
    fold c8 in I9.
    assert (Rc : n_rc h9 = upd (n_rc h) n1 (rnd p) /\ n_p h9 = upd (n_p h) n1 p /\ g_bag h9 = g_bag h7).
    { rewrite S8 in S9. unfold spots in S9. injection S9 as K1 K2 K3. rewrite K1, K2, K3, Ep, Er. auto. }
    destruct Rc as (Rc & Rp & Rb).
    assert (Ine : cNE c8 n2 = keep DE (n_edges h n2)).
    { unfold c8. cs. rewrite A1, keep3. auto. }
    assert (Inf : cNF c8 n2 = keep D (n_faces h n2)).
    { unfold c8. cs. rewrite A2, keep2. auto. }
    assert (Eqen : cEN c8 = e_nodes h) by (unfold c8; cs; auto).
    assert (Eqfn : cFN c8 = f_nodes h) by (unfold c8; cs; auto).
    assert (Far : forall m, In m (g_nodes h) -> n_rc h9 m = n_rc h9 n2 -> m = n2).
    { intros m Hm. rewrite Rc. rewrite (upd_other _ _ n1 _ n2) by auto. destruct (Nat.eq_dec m n1) as [->|Dm].
      - rewrite upd_same. intros K. exfalso. apply (Pt n2); auto.
      - rewrite upd_other by auto. intros K. destruct Co as (_ & _ & _ & _ & (Nr & _)).
        destruct (In_nth_error _ _ Hm) as (i & Ei). destruct (In_nth_error _ _ Q2) as (j & Ej).
        assert (i = j).
        { apply (proj1 (NoDup_nth_error _) Nr); [rewrite map_length; apply nth_error_Some; congruence|].
          rewrite !nth_error_map, Ei, Ej. cbn. congruence. }
        subst j. congruence. }
    assert (Le : forall e, In e (keep DE (n_edges h n2)) -> In e (g_edges h) /\ ~ In e DE /\ In n2 (e_nodes h e)).
    { intros e K. apply keep_In in K as [K1 K2]. destruct (t_node_edges h T n2 Q2) as [_ Ii].
      split; [auto|]. split; [auto|]. apply (t_ne h T); auto. }
    assert (Lf : forall f, In f (keep D (n_faces h n2)) -> In f (g_faces h) /\ ~ In f D /\ In n2 (f_nodes h f)).
    { intros e K. apply keep_In in K as [K1 K2]. destruct (t_node_faces h T n2 Q2) as [_ Ii].
      split; [auto|]. split; [auto|]. apply (t_nf h T); auto. }
    destruct (v_replace h c8 h9 n1 n2 I9 Q1 Q2 D12) as (h9' & E9' & I9' & S9').
    { rewrite Ine. apply keep_NoDup, ne_facts; auto. }
    { rewrite Inf. apply keep_NoDup, (t_node_faces h T n2 Q2). }
    { rewrite Ine. intros e K. apply Le in K. tauto. }
    { rewrite Inf. intros e K. apply Lf in K. tauto. }
    { rewrite Ine, Eqen. intros e K. apply Le in K as (K1 & K2 & K3). destruct (t_edge_nodes h T e K1) as (_ & N & Ii).
      split; [auto|]. split; [auto|]. intros m Hm. apply Far. auto. }
    { rewrite Inf, Eqfn. intros e K. apply Lf in K as (K1 & K2 & K3). destruct (t_face_nodes h T e K1) as (_ & N & Ii).
      split; [auto|]. split; [auto|]. intros m Hm. apply Far. auto. }
    assert (Rc' : n_rc h9' = upd (n_rc h) n1 (rnd p) /\ n_p h9' = upd (n_p h) n1 p /\ g_bag h9' = g_bag h7).
    { unfold spots in S9'. injection S9' as K1 K2 K3. rewrite K1, K2, K3. auto. }
    destruct Rc' as (Rc' & Rp' & Rb').
    assert (Hd : exists f, hd_error (keep D (n_faces h n2)) = Some f).
    { destruct Third as (g & K1 & K2 & K3 & K4). destruct (keep D (n_faces h n2)) as [|f l] eqn:E; [|exists f; auto].
      exfalso. assert (K : In g (keep D (n_faces h n2))).
      { apply keep_In. split; [apply (t_nf h T); auto|]. cbn. intuition. }
      rewrite E in K. destruct K. }
    destruct Hd as (f & Hd).
    assert (Hf : In f (keep D (n_faces h n2))) by (destruct (keep D (n_faces h n2)); [discriminate Hd|cbn in Hd; injection Hd as ->; left; auto]).
    apply Lf in Hf as (Hf1 & Hf2 & Hf3).
    assert (Neq : (n2 =? n1) = false) by (apply Nat.eqb_neq; auto).
    destruct Co as (_ & ZO & ZL & _ & (Nr & Bi & Rn)). destruct (ZL z Hz) as [Zn _].
    destruct (v_del_node h (crp n2 n1 c8) h9' n2 z f I9' Q2) as (h10 & E10 & I10 & W1 & W2 & W3 & W4).
    { cs. rewrite Neq, Ine. intros e K. apply Le in K. tauto. }
    { cs. rewrite Neq, Inf. intros e K. apply Lf in K. tauto. }
    { intros e m. cs. rewrite Neq, Ine, Eqen. intros K. apply Le in K as K'. destruct K' as (K1 & K2 & K3).
      destruct (in_dec Nat.eq_dec e (keep DE (n_edges h n2))) as [_|J]; [|contradiction]. intros Hm.
      rewrite Rc', <- Rc. intros Q. apply in_app_iff in Hm as [Hm|[<-|[]]].
      - apply keep_In in Hm as [Hm Hm']. apply Far in Q; [|apply (t_edge_nodes h T e K1); auto]. apply Hm'. left; auto.
      - apply Far in Q; auto. }
    { intros e m. cs. rewrite Neq, Inf, Eqfn. intros K. apply Lf in K as K'. destruct K' as (K1 & K2 & K3).
      destruct (in_dec Nat.eq_dec e (keep D (n_faces h n2))) as [_|J]; [|contradiction]. intros Hm.
      rewrite Rc', <- Rc. intros Q. apply in_app_iff in Hm as [Hm|[<-|[]]].
      - apply keep_In in Hm as [Hm Hm']. apply Far in Q; [|apply (t_face_nodes h T e K1); auto]. apply Hm'. left; auto.
      - apply Far in Q; auto. }
    { cs. rewrite Neq, Inf. exact Hd. }
    { apply Zo; auto. }
    { auto. }
    { cs. unfold c8; cs. rewrite A5. eapply PatchDel.sublist_NoDup; [exact Zn|]. apply (t_nodes_nd h T). }
    { cs. unfold c8; cs. rewrite A5. apply (DecompProofs.sublist_In _ _ _ _ n2 Zn). split; [auto|]. exists f. split; [apply (t_nf h T); auto|apply Zo; auto]. }
    { cs. unfold c8; cs. rewrite A5, A8. intros m K. eapply PatchDel.sublist_In; eauto. }
    { cs. unfold c8; cs. rewrite A8. apply (t_nodes_nd h T). }
    { cs. unfold c8; cs. rewrite A8. auto. }
    { cs. unfold c8; cs. rewrite A8. intros m Hm. rewrite Rc', <- Rc. apply Far. auto. }
    { rewrite Rb'. auto. }
    { rewrite Rb', Rc', upd_other by auto. apply Hb. left. split; [apply Bi, in_map; auto|].
      intros K. apply D12. symmetry.
      destruct (In_nth_error _ _ Q1) as (i & Ei). destruct (In_nth_error _ _ Q2) as (j & Ej).
      assert (i = j).
      { apply (proj1 (NoDup_nth_error _) Nr); [rewrite map_length; apply nth_error_Some; congruence|].
        rewrite !nth_error_map, Ei, Ej. cbn. congruence. }
      subst j. congruence. }
    exists h10. split.
    { intros B k. rewrite (bind_run _ _ _ _ _ _ _ E8). cbv beta. rewrite (bind_run _ _ _ _ _ _ _ E9). cbv beta.
      rewrite (bind_run _ _ _ _ _ _ _ E9'). cbv beta. rewrite (bind_run _ _ _ _ _ _ _ E10). auto. }
    split; [exact I10|]. split; [rewrite W1, Rp'; auto|]. split; [rewrite W2, Rc'; auto|]. split; [exact W3|].
    intros r. rewrite W4, Rb', Hb, Rc', upd_other by auto. tauto.
  Qed.
End Collapse.
