(** Steps of the contraction of an edge: how each of them changes the lists of the grid. *)

From Coq Require Import ZArith NArith Ascii String Bool Lia List Permutation.
From Verif Require Import Py PyLemmas Heap HeapLemmas GridModel GridSpec DecompProofs LoadPlace Atomic AtomicSpec
  PatchProofs PatchRun PatchDel.
Import ListNotations.
Open Scope list_scope.
Open Scope nat_scope.

Section State.
  Context {F : FloatOps}.

  (** Lists of nodes, edges, faces, zones and of the grid. *)
  Record cst : Type := mkC {
    cNE : nat -> list nat; cNF : nat -> list nat;
    cEN : nat -> list nat; cEF : nat -> list nat;
    cFN : nat -> list nat; cFE : nat -> list nat;
    cZN : nat -> list nat; cZE : nat -> list nat; cZF : nat -> list nat;
    cGN : list nat; cGE : list nat; cGF : list nat
  }.

  Definition start (h : heap) : cst :=
    mkC (n_edges h) (n_faces h) (e_nodes h) (e_faces h) (f_nodes h) (f_edges h) (z_nodes h) (z_edges h) (z_faces h)
        (g_nodes h) (g_edges h) (g_faces h).

  (** Attributes that do not change before the numbers are changed. *)
  Definition frame (h : heap) :=
    ((n_glo h, n_border h, e_glo h, f_glo h, f_data h, f_zone h, f_mark h),
     (z_id h, z_name h, z_fixed h), (next_n h, next_e h, next_f h, next_z h), (g_name h, g_zones h, g_nborder h)).

  (** The lists of the objects of [h0] are in [h] as in [c]. *)
  Record V (h0 : heap) (c : cst) (h : heap) : Prop := {
    v_fr : frame h = frame h0;
    v_ne : forall n, In n (g_nodes h0) -> n_edges h n = cNE c n;
    v_nf : forall n, In n (g_nodes h0) -> n_faces h n = cNF c n;
    v_en : forall e, In e (g_edges h0) -> e_nodes h e = cEN c e;
    v_ef : forall e, In e (g_edges h0) -> e_faces h e = cEF c e;
    v_fn : forall f, In f (g_faces h0) -> f_nodes h f = cFN c f;
    v_fe : forall f, In f (g_faces h0) -> f_edges h f = cFE c f;
    v_zn : forall z, In z (g_zones h0) -> z_nodes h z = cZN c z;
    v_ze : forall z, In z (g_zones h0) -> z_edges h z = cZE c z;
    v_zf : forall z, In z (g_zones h0) -> z_faces h z = cZF c z;
    v_gn : g_nodes h = cGN c;
    v_ge : g_edges h = cGE c;
    v_gf : g_faces h = cGF c
  }.

  (** Positions. *)
  Definition spots (h : heap) := (n_p h, n_rc h, g_bag h).

  Lemma v_start : forall h, V h (start h) h.
  Proof. intros h. constructor; auto. Qed.

  Lemma frame_fields : forall h h', frame h' = frame h ->
    (n_glo h' = n_glo h /\ n_border h' = n_border h /\ e_glo h' = e_glo h /\ f_glo h' = f_glo h /\
     f_data h' = f_data h /\ f_zone h' = f_zone h) /\
    (z_id h' = z_id h /\ z_name h' = z_name h /\ z_fixed h' = z_fixed h) /\
    (next_n h' = next_n h /\ next_e h' = next_e h /\ next_f h' = next_f h /\ next_z h' = next_z h) /\
    g_name h' = g_name h /\ g_zones h' = g_zones h /\ g_nborder h' = g_nborder h.
  Proof. intros h h' E. unfold frame in E. injection E; intros. repeat split; auto. Qed.

  Variable h0 : heap.

  Definition cdf (f : nat) (c : cst) : cst :=
    mkC (cNE c) (fun n => keep [f] (cNF c n)) (cEN c) (fun e => keep [f] (cEF c e)) (cFN c) (cFE c) (cZN c) (cZE c)
        (fun z => keep [f] (cZF c z)) (cGN c) (cGE c) (keep [f] (cGF c)).

  (** Deletion of a face. *)
  Lemma v_del_face : forall c h f z, V h0 c h -> In f (g_faces h0) -> In z (g_zones h0) -> f_zone h0 f = Some z ->
    incl (cFN c f) (g_nodes h0) -> incl (cFE c f) (g_edges h0) ->
    (forall n, In n (g_nodes h0) -> NoDup (cNF c n) /\ (In f (cNF c n) -> In n (cFN c f))) ->
    (forall e, In e (g_edges h0) -> NoDup (cEF c e) /\ (In f (cEF c e) -> In e (cFE c f))) ->
    (forall y, In y (g_zones h0) -> NoDup (cZF c y) /\ (In f (cZF c y) <-> y = z)) ->
    NoDup (cGF c) -> In f (cGF c) ->
    exists h', del_face f h = (Ok tt, h') /\ V h0 (cdf f c) h' /\ spots h' = spots h.
  Proof.
    intros c h f z I Hf Hz Ez In1 In2 Hn He Hzs Ng Hg.
    destruct (frame_fields _ _ (v_fr _ _ _ I)) as ((_ & _ & _ & _ & _ & Gz) & _).
    unfold del_face. rewrite bind_gets, (v_fn _ _ _ I f Hf).
    destruct (rem_if_all (@n_faces F) set_n_faces ltac:(auto) ltac:(auto) ltac:(intros []; auto) f (cFN c f) h) as (m1 & E1 & H1).
    { intros n K. rewrite (v_nf _ _ _ I) by auto. apply Hn. auto. }
    unfold put_n_faces. unfold bind at 1. unfold put_one in E1. rewrite E1. clear E1.
    rewrite bind_gets. cbn [f_edges set_n_faces]. rewrite (v_fe _ _ _ I f Hf).
    destruct (rem_if_all (@e_faces F) set_e_faces ltac:(auto) ltac:(auto) ltac:(intros []; auto) f (cFE c f) (set_n_faces h m1)) as (m2 & E2 & H2).
    { intros e K. cbn. rewrite (v_ef _ _ _ I) by auto. apply He. auto. }
    unfold put_e_faces. unfold bind at 1. unfold put_one in E2. rewrite E2. clear E2.
    unfold zone_of. unfold bind at 1. cbn [f_zone set_e_faces set_n_faces]. rewrite Gz, Ez.
    unfold zone_remove_face. rewrite bind_assoc, bind_gets. cbn [z_faces set_e_faces set_n_faces].
    rewrite (v_zf _ _ _ I z Hz). destruct (Hzs z Hz) as [Nz Iz].
    rewrite remove1_keep by (auto; apply Iz; auto). rewrite bind_modify.
    unfold remove_from. rewrite bind_gets. cbn [g_faces set_e_faces set_n_faces set_z_faces].
    rewrite (v_gf _ _ _ I), remove1_keep by auto.
    eexists. split; [reflexivity|]. split; [|reflexivity].
    constructor; cbn [cdf cNE cNF cEN cEF cFN cFE cZN cZE cZF cGN cGE cGF]; try (apply I).
    - intros n K. cbn. destruct (H1 n) as [K1 K2]. rewrite (v_nf _ _ _ I) in K1, K2 by auto.
      destruct (in_dec Nat.eq_dec n (cFN c f)) as [J|J]; [auto|].
      rewrite K2 by auto. symmetry. apply keep_id. intros x Hx [<-|[]]. apply J. apply Hn; auto.
    - intros e K. cbn. destruct (H2 e) as [K1 K2]. cbn in K1, K2. rewrite (v_ef _ _ _ I) in K1, K2 by auto.
      destruct (in_dec Nat.eq_dec e (cFE c f)) as [J|J]; [auto|].
      rewrite K2 by auto. symmetry. apply keep_id. intros x Hx [<-|[]]. apply J. apply He; auto.
    - intros y K. cbn. destruct (Nat.eq_dec y z) as [->|N].
      + rewrite upd_same. auto.
      + rewrite upd_other by auto. rewrite (v_zf _ _ _ I) by auto. symmetry. apply keep_id.
        intros x Hx [<-|[]]. apply N. apply Hzs; auto.
    - reflexivity.
  Qed.

  Definition cde (e : nat) (c : cst) : cst :=
    mkC (fun n => keep [e] (cNE c n)) (cNF c) (cEN c) (cEF c) (cFN c)
        (fun f => if in_dec Nat.eq_dec f (cEF c e) then keep [e] (cFE c f) else cFE c f) (cZN c)
        (fun z => keep [e] (cZE c z)) (cZF c) (cGN c) (keep [e] (cGE c)) (cGF c).

  (** Deletion of an edge. *)
  Lemma v_del_edge : forall c h e x y, V h0 c h -> In e (g_edges h0) -> cEN c e = [x; y] -> x <> y ->
    In x (g_nodes h0) -> In y (g_nodes h0) ->
    (forall n, In n (g_nodes h0) -> NoDup (cNE c n) /\ (In e (cNE c n) <-> n = x \/ n = y)) ->
    NoDup (cEF c e) -> (forall f, In f (cEF c e) -> In f (g_faces h0) /\ NoDup (cFE c f) /\ In e (cFE c f)) ->
    (forall z, In z (g_zones h0) -> NoDup (cZE c z)) -> NoDup (cGE c) -> In e (cGE c) ->
    exists h', del_edge e h = (Ok tt, h') /\ V h0 (cde e c) h' /\ spots h' = spots h.
  Proof.
    intros c h e x y I He En Nxy Hx Hy Hn Ne Hf Hz Ng Hg.
    destruct (frame_fields _ _ (v_fr _ _ _ I)) as (_ & _ & _ & _ & Gz & _).
    unfold del_edge. rewrite bind_gets, (v_en _ _ _ I e He), En, bind_item0.
    destruct (Hn x Hx) as [Nx Ix]. destruct (Hn y Hy) as [Ny Iy].
    destruct (rem_from_one (@n_edges F) set_n_edges x e h) as (m1 & E1 & H1).
    { rewrite (v_ne _ _ _ I) by auto. auto. }
    { rewrite (v_ne _ _ _ I) by auto. apply Ix. auto. }
    unfold put_n_edges. unfold bind at 1. unfold put_one in E1. rewrite E1. clear E1. rewrite bind_item1.
    assert (Dyx : (y =? x) = false) by (apply Nat.eqb_neq; auto).
    destruct (rem_from_one (@n_edges F) set_n_edges y e (set_n_edges h m1)) as (m2 & E2 & H2).
    { cbn. rewrite H1, Dyx, (v_ne _ _ _ I) by auto. auto. }
    { cbn. rewrite H1, Dyx, (v_ne _ _ _ I) by auto. apply Iy. auto. }
    unfold bind at 1. unfold put_one in E2. rewrite E2. clear E2. cbn [n_edges set_n_edges] in H2.
    rewrite bind_gets. cbn [e_faces set_n_edges]. rewrite (v_ef _ _ _ I e He).
    destruct (rem_from_all (@f_edges F) set_f_edges ltac:(auto) ltac:(auto) ltac:(intros []; auto) e (cEF c e)
      (set_n_edges (set_n_edges h m1) m2)) as (m3 & E3 & H3).
    { auto. }
    { intros f K. cbn. destruct (Hf f K) as (K1 & K2 & K3). rewrite (v_fe _ _ _ I) by auto. auto. }
    unfold put_f_edges. unfold bind at 1. unfold put_one in E3. rewrite E3. clear E3.
    cbn [f_edges set_n_edges] in H3. rewrite bind_gets. cbn [g_zones set_n_edges set_f_edges]. rewrite Gz.
    destruct (rem_if_all (@z_edges F) set_z_edges ltac:(auto) ltac:(auto) ltac:(intros []; auto) e (g_zones h0)
      (set_f_edges (set_n_edges (set_n_edges h m1) m2) m3)) as (m4 & E4 & H4).
    { intros z K. cbn. rewrite (v_ze _ _ _ I) by auto. auto. }
    unfold put_z_edges. unfold bind at 1. unfold put_one in E4. rewrite E4. clear E4.
    cbn [z_edges set_n_edges set_f_edges] in H4.
    unfold remove_from. rewrite bind_gets. cbn [g_edges set_n_edges set_f_edges set_z_edges].
    rewrite (v_ge _ _ _ I), remove1_keep by auto.
    eexists. split; [reflexivity|]. split; [|reflexivity].
    constructor; cbn [cde cNE cNF cEN cEF cFN cFE cZN cZE cZF cGN cGE cGF]; try (apply I).
    - intros n K. cbn. rewrite H2, H1, (v_ne _ _ _ I) by auto.
      destruct (Nat.eqb_spec n y) as [->|M1].
      + rewrite Dyx. auto.
      + destruct (Nat.eqb_spec n x) as [->|M2]; [auto|]. symmetry. apply keep_id.
        intros w Hw [<-|[]]. apply (proj2 (Hn n K)) in Hw. tauto.
    - intros f K. cbn. destruct (H3 f) as [L1 L2]. rewrite (v_fe _ _ _ I) in L1, L2 by auto.
      destruct (in_dec Nat.eq_dec f (cEF c e)); auto.
    - intros z K. cbn. destruct (H4 z) as [L1 _]. rewrite L1 by auto. rewrite (v_ze _ _ _ I) by auto. auto.
    - reflexivity.
  Qed.

  Definition crm (f e : nat) (c : cst) : cst :=
    mkC (cNE c) (cNF c) (cEN c) (cEF c) (cFN c) (fun g => if Nat.eqb g f then keep [e] (cFE c g) else cFE c g)
        (cZN c) (cZE c) (cZF c) (cGN c) (cGE c) (cGF c).

  (** Removal of an edge from the list of a face. *)
  Lemma v_rm : forall c h f e, V h0 c h -> In f (g_faces h0) -> NoDup (cFE c f) -> In e (cFE c f) ->
    exists h', remove_from (fun h => f_edges h f) (put_f_edges f) (Nat.eqb e) h = (Ok tt, h') /\
      V h0 (crm f e c) h' /\ spots h' = spots h.
  Proof.
    intros c h f e I Hf N H.
    destruct (rem_from_one (@f_edges F) set_f_edges f e h) as (m & E & Hm).
    { rewrite (v_fe _ _ _ I) by auto. auto. }
    { rewrite (v_fe _ _ _ I) by auto. auto. }
    exists (set_f_edges h m). split; [exact E|]. split; [|reflexivity].
    constructor; cbn [crm cNE cNF cEN cEF cFN cFE cZN cZE cZF cGN cGE cGF]; try (apply I).
    intros g K. cbn. rewrite Hm. destruct (Nat.eqb g f); rewrite (v_fe _ _ _ I) by auto; auto.
  Qed.

  Definition clk (e f : nat) (c : cst) : cst :=
    mkC (cNE c) (cNF c) (cEN c) (fun d => if Nat.eqb d e then cEF c d ++ [f] else cEF c d) (cFN c)
        (fun g => if Nat.eqb g f then cFE c g ++ [e] else cFE c g)
        (cZN c) (cZE c) (cZF c) (cGN c) (cGE c) (cGF c).

  (** A link between an edge and a face. *)
  Lemma v_link : forall c h e f, V h0 c h -> In e (g_edges h0) -> In f (g_faces h0) -> length (cEF c e) <> 2 ->
    exists h', link_edge_face e f h = (Ok tt, h') /\ V h0 (clk e f c) h' /\ spots h' = spots h.
  Proof.
    intros c h e f I He Hf L. unfold link_edge_face. rewrite bind_gets.
    assert (K : (length (e_faces h e) =? 2) = false) by (rewrite (v_ef _ _ _ I) by auto; apply Nat.eqb_neq; auto).
    rewrite K. rewrite bind_modify. eexists. split; [reflexivity|]. split; [|reflexivity].
    constructor; cbn [clk cNE cNF cEN cEF cFN cFE cZN cZE cZF cGN cGE cGF]; try (apply I).
    - intros d Hd. cbn. destruct (Nat.eqb_spec d e) as [->|N].
      + rewrite upd_same, (v_ef _ _ _ I) by auto. auto.
      + rewrite upd_other, (v_ef _ _ _ I) by auto. auto.
    - intros g Hg. cbn. destruct (Nat.eqb_spec g f) as [->|N].
      + rewrite upd_same, (v_fe _ _ _ I) by auto. auto.
      + rewrite upd_other, (v_fe _ _ _ I) by auto. auto.
  Qed.
End State.
