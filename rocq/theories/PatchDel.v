(** Deletion of faces and edges in the account of changes, and runs of several links. *)

From Coq Require Import ZArith NArith Ascii String Bool Lia List Permutation.
From Verif Require Import Py PyLemmas Heap HeapLemmas GridModel GridSpec DecompProofs LoadPlace Atomic AtomicSpec PatchProofs PatchRun.
Import ListNotations.
Open Scope list_scope.
Open Scope nat_scope.

Section Remove.
  Context {F : FloatOps}.

  (** Removal of one element from the lists of several objects, for any attribute. *)
  Variable get : heap -> nat -> list nat.
  Variable put : heap -> (nat -> list nat) -> heap.
  Hypothesis gp : forall h m, get (put h m) = m.
  Hypothesis pp : forall h a b, put (put h a) b = put h b.
  Hypothesis pg : forall h, put h (get h) = h.

  Definition put_one (x : nat) (l : list nat) : M unit := modify (fun h => put h (upd (get h) x l)).

  Lemma mem_nat : forall x l, mem (Nat.eqb x) l = true <-> In x l.
  Proof.
    intros x l. unfold mem. rewrite existsb_exists. split.
    - intros (y & Hy & E). apply Nat.eqb_eq in E. subst; auto.
    - intros H. exists x. rewrite Nat.eqb_refl. auto.
  Qed.

  Lemma rem_if_one : forall x f h, NoDup (get h x) ->
    exists m, remove_if (fun h => get h x) (put_one x) (Nat.eqb f) h = (Ok tt, put h m) /\
      forall y, m y = if Nat.eqb y x then keep [f] (get h y) else get h y.
  Proof.
    intros x f h H. unfold remove_if. rewrite bind_gets. destruct (mem (Nat.eqb f) (get h x)) eqn:E.
    - apply mem_nat in E. unfold remove_from. rewrite bind_gets, remove1_keep by auto.
      eexists. split; [reflexivity|]. intros y. destruct (Nat.eqb_spec y x) as [->|N].
      + apply upd_same.
      + rewrite upd_other; auto.
    - exists (get h). rewrite pg. split; auto. intros y. destruct (Nat.eqb_spec y x) as [->|N]; auto.
      symmetry. apply keep_id. intros z Hz [<-|[]]. apply not_true_iff_false in E. apply E. apply mem_nat. auto.
  Qed.

  Lemma rem_from_one : forall x f h, NoDup (get h x) -> In f (get h x) ->
    exists m, remove_from (fun h => get h x) (put_one x) (Nat.eqb f) h = (Ok tt, put h m) /\
      forall y, m y = if Nat.eqb y x then keep [f] (get h y) else get h y.
  Proof.
    intros x f h H Hf. unfold remove_from. rewrite bind_gets, remove1_keep by auto.
    eexists. split; [reflexivity|]. intros y. destruct (Nat.eqb_spec y x) as [->|N].
    + apply upd_same.
    + rewrite upd_other; auto.
  Qed.

  Lemma rem_if_all : forall f xs h, (forall x, In x xs -> NoDup (get h x)) ->
    exists m, for_each xs (fun x => remove_if (fun h => get h x) (put_one x) (Nat.eqb f)) h = (Ok tt, put h m) /\
      forall y, (In y xs -> m y = keep [f] (get h y)) /\ (~ In y xs -> m y = get h y).
  Proof.
    intros f xs. induction xs as [|x xs IH]; intros h H.
    - exists (get h). rewrite pg. split; [reflexivity|]. intros y. split; [intros []|auto].
    - destruct (rem_if_one x f h) as (m & E & Hm); [apply H; left; auto|].
      destruct (IH (put h m)) as (m' & E' & Hm').
      { intros y Hy. rewrite gp, Hm. destruct (Nat.eqb y x); [apply keep_NoDup|]; apply H; right; auto. }
      exists m'. split.
      { cbn [for_each]. unfold bind. rewrite E. rewrite E'. rewrite pp. auto. }
      intros y. destruct (Hm' y) as [K1 K2]. rewrite gp, Hm in K1, K2.
      destruct (Nat.eqb_spec y x) as [Eq|N]; [subst y|].
      + split; [|intros Hq; exfalso; apply Hq; left; auto]. intros _.
        destruct (in_dec Nat.eq_dec x xs) as [I|I]; [rewrite K1 by auto|auto].
        rewrite keep_keep. unfold keep. cbn. apply filter_ext. intros a. destruct (a =? f); auto.
      + split; [intros [Hy|Hy]; [congruence|auto]|]. intros Hy. apply K2. intros I. apply Hy. right; auto.
  Qed.

  Lemma rem_from_all : forall f xs h, NoDup xs -> (forall x, In x xs -> NoDup (get h x) /\ In f (get h x)) ->
    exists m, for_each xs (fun x => remove_from (fun h => get h x) (put_one x) (Nat.eqb f)) h = (Ok tt, put h m) /\
      forall y, (In y xs -> m y = keep [f] (get h y)) /\ (~ In y xs -> m y = get h y).
  Proof.
    intros f xs. induction xs as [|x xs IH]; intros h Hn H.
    - exists (get h). rewrite pg. split; [reflexivity|]. intros y. split; [intros []|auto].
    - inversion Hn as [|? ? Hx Hn']; subst.
      destruct (rem_from_one x f h) as (m & E & Hm); [apply H; left; auto|apply H; left; auto|].
      destruct (IH (put h m) Hn') as (m' & E' & Hm').
      { intros y Hy. rewrite gp, Hm. destruct (Nat.eqb_spec y x) as [->|N]; [contradiction|]. apply H; right; auto. }
      exists m'. split.
      { cbn [for_each]. unfold bind. rewrite E. rewrite E'. rewrite pp. auto. }
      intros y. destruct (Hm' y) as [K1 K2]. rewrite gp, Hm in K1, K2.
      destruct (Nat.eqb_spec y x) as [Eq|N]; [subst y|].
      + split; [|intros Hq; exfalso; apply Hq; left; auto]. auto.
      + split; [intros [Hy|Hy]; [congruence|auto]|]. intros Hy. apply K2. intros I. apply Hy. right; auto.
  Qed.
End Remove.

Section Del.
  Context {F : FloatOps}.
  Variable h0 : heap.
  Hypothesis T : topo_ok h0.
  Hypothesis ZO : zones_ok h0.
  Hypothesis ZL : listed_once h0.

  Lemma sublist_In : forall A (p : A -> Prop) l l' x, sublist_of p l l' -> In x l' -> In x l.
  Proof. intros A p l l' x H. induction H; cbn; auto. intros [->|K]; auto. Qed.

  Lemma sublist_NoDup : forall A (p : A -> Prop) l l', sublist_of p l l' -> NoDup l -> NoDup l'.
  Proof.
    intros A p l l' H. induction H; intros N; auto.
    - inversion N; subst. constructor; auto. intros K. eapply sublist_In in K; eauto.
    - inversion N; subst. auto.
  Qed.

  Lemma keep_snoc : forall d x l, keep [x] (keep d l) = keep (d ++ [x]) l.
  Proof. intros. apply keep_keep. Qed.

  Lemma keep_snoc_out : forall d x l, ~ In x l -> keep (d ++ [x]) l = keep d l.
  Proof.
    intros d x l H. rewrite <- keep_keep. apply keep_id. intros y Hy [<-|[]]. apply keep_In in Hy as [Hy _]. auto.
  Qed.

  Lemma del_face_inv : forall a h f, Inv h0 a h -> aNF a = [] -> aEF a = [] -> aZF a = [] -> aAF a = [] ->
    In f (g_faces h0) -> ~ In f (aD a) -> (forall e, In e (f_edges h0 f) -> (In e (sel (aRM a) f) <-> In e (aDE a))) ->
    exists h', del_face f h = (Ok tt, h') /\
      Inv h0 (mkAcc (aD a ++ [f]) (aDE a) (aRM a) (aNE a) (aEF a) (aNF a) (aPts a) (aFD a) (aEn a)
                    (aAF a) (aAE a) (aZF a) (aZE a) (aZN a)) h'.
  Proof.
    intros a h f I N1 N2 N3 N4 Hf Hd Hr.
    pose proof (t_face_alloc h0 T f Hf) as La.
    destruct (i_f_old _ _ _ I f La) as (Fn & _ & _ & Fz & Fe).
    destruct (t_face_nodes h0 T f Hf) as (_ & _ & Fni). destruct (t_face_edges h0 T f Hf) as (_ & Fend & Fei).
    destruct (zo_cover h0 ZO f Hf) as (z & Hz & Ez).
    unfold del_face. rewrite bind_gets, Fn.
    destruct (rem_if_all (@n_faces F) set_n_faces ltac:(auto) ltac:(auto) ltac:(intros []; auto) f (f_nodes h0 f) h) as (m1 & E1 & H1).
    { intros n Hn. rewrite (i_n_faces _ _ _ I), N1 by auto. rewrite app_nil_r. apply keep_NoDup.
      apply (t_node_faces h0 T). auto. }
    unfold put_n_faces. unfold bind at 1. unfold put_one in E1. rewrite E1. clear E1.
    rewrite bind_gets. cbn [f_edges set_n_faces]. rewrite Fe.
    set (es := keep (sel (aRM a) f) (f_edges h0 f)).
    assert (Hes : forall e, In e es -> In e (f_edges h0 f)) by (intros e He; apply keep_In in He; tauto).
    destruct (rem_if_all (@e_faces F) set_e_faces ltac:(auto) ltac:(auto) ltac:(intros []; auto) f es (set_n_faces h m1)) as (m2 & E2 & H2).
    { intros e He. cbn. assert (J : ~ In e (aDE a)).
      { rewrite <- (Hr e) by auto. apply keep_In in He. tauto. }
      rewrite (i_e_faces _ _ _ I), N2 by auto. rewrite app_nil_r. apply keep_NoDup. apply (t_edge_faces h0 T). auto. }
    unfold put_e_faces. unfold bind at 1. unfold put_one in E2. rewrite E2. clear E2.
    unfold zone_of. unfold bind at 1. cbn [f_zone set_e_faces set_n_faces]. rewrite Fz, Ez.
    unfold zone_remove_face. rewrite bind_assoc, bind_gets. cbn [z_faces set_e_faces set_n_faces].
    rewrite (i_z_faces _ _ _ I z Hz), N3. cbn [sel filter map]. rewrite app_nil_r.
    assert (Zf : In f (z_faces h0 z)) by (apply (zo_faces h0 ZO); auto).
    rewrite remove1_keep; [|apply keep_NoDup; apply (zo_faces_nd h0 ZO); auto|apply keep_In; auto].
    rewrite bind_modify. unfold remove_from. rewrite bind_gets. cbn [g_faces set_e_faces set_n_faces set_z_faces].
    rewrite (i_g_faces _ _ _ I), N4. cbn [map]. rewrite app_nil_r.
    rewrite remove1_keep; [|apply keep_NoDup; apply (t_faces_nd h0 T)|apply keep_In; auto].
    eexists. split; [reflexivity|].
    rewrite !keep_snoc.
    constructor; cbn [aD aDE aRM aNE aEF aNF aPts aFD aEn aAF aAE aZF aZE aZN]; try (apply I); rewrite ?N1, ?N2, ?N3, ?N4; try (intros ? ? K; inversion K; fail).
    - cbn. rewrite app_nil_r. auto.
    - intros n Hn. cbn. rewrite app_nil_r. destruct (H1 n) as [K1 K2].
      pose proof (i_n_faces _ _ _ I n Hn) as K. rewrite N1 in K. cbn in K. rewrite app_nil_r in K.
      destruct (in_dec Nat.eq_dec n (f_nodes h0 f)) as [J|J].
      + rewrite K1, K by auto. apply keep_snoc.
      + rewrite K2, K by auto. rewrite keep_snoc_out; auto. intros L. apply J. apply (t_nf h0 T); auto.
    - intros n Hn. cbn in *. destruct (H1 n) as [K1 K2]. rewrite K2.
      + destruct (i_n_new _ _ _ I n Hn) as [K3 K4]. rewrite N1 in K4. auto.
      + intros J. apply Fni in J. apply (t_node_alloc h0 T) in J. lia.
    - intros e He Hde. cbn. rewrite app_nil_r. destruct (H2 e) as [K1 K2].
      pose proof (i_e_faces _ _ _ I e He Hde) as K. rewrite N2 in K. cbn in K. rewrite app_nil_r in K.
      destruct (in_dec Nat.eq_dec e es) as [J|J].
      + rewrite K1 by auto. cbn. rewrite K. apply keep_snoc.
      + rewrite K2 by auto. cbn. rewrite K. rewrite keep_snoc_out; auto. intros L. apply J.
        assert (In e (f_edges h0 f)) by (apply (t_ef h0 T); auto).
        apply keep_In. split; auto. rewrite (Hr e); auto.
    - intros e He. cbn in *. destruct (H2 e) as [K1 K2]. rewrite K2.
      + cbn. destruct (i_e_new _ _ _ I e He) as [K3 K4]. rewrite N2 in K4. auto.
      + intros J. apply Hes, Fei in J. apply (t_edge_alloc h0 T) in J. lia.
    - pose proof (i_f_zone_none _ _ _ I) as K. rewrite N3 in K. exact K.
    - intros y Hy. cbn. rewrite app_nil_r. destruct (Nat.eq_dec y z) as [->|N].
      + rewrite upd_same. auto.
      + rewrite upd_other by auto. rewrite (i_z_faces _ _ _ I y Hy), N3. cbn. rewrite app_nil_r.
        symmetry. apply keep_snoc_out. intros J. apply (zo_faces h0 ZO) in J as [_ J]; auto. congruence.
  Qed.

  Lemma bind_item0 : forall B x l (k : nat -> M B) h, bind (item0 (x :: l)) k h = k x h.
  Proof. reflexivity. Qed.
  Lemma bind_item1 : forall B x y l (k : nat -> M B) h, bind (item1 (x :: y :: l)) k h = k y h.
  Proof. reflexivity. Qed.

  Lemma zone_edges_nd : forall z, In z (g_zones h0) -> NoDup (z_edges h0 z).
  Proof.
    intros z Hz. apply (ZL z Hz).
  Qed.

  Lemma del_edge_inv : forall a h e x y, Inv h0 a h -> aNE a = [] -> aEF a = [] -> aZE a = [] -> aAE a = [] ->
    In e (g_edges h0) -> ~ In e (aDE a) -> (forall f, ~ In (f, e) (aRM a)) -> e_nodes h0 e = [x; y] ->
    exists h', del_edge e h = (Ok tt, h') /\ e_faces h' = e_faces h /\
      Inv h0 (mkAcc (aD a) (aDE a ++ [e]) (aRM a ++ map (fun f => (f, e)) (keep (aD a) (e_faces h0 e)))
                    (aNE a) (aEF a) (aNF a) (aPts a) (aFD a) (aEn a)
                    (aAF a) (aAE a) (aZF a) (aZE a) (aZN a)) h'.
  Proof.
    intros a h e x y I N1 N2 N3 N4 He Hd Hr En.
    pose proof (t_edge_alloc h0 T e He) as La.
    destruct (i_e_nodes _ _ _ I e La) as (Fn & _).
    destruct (t_edge_nodes h0 T e He) as (_ & Nd & Fni). rewrite En in Nd, Fni.
    assert (Hx : In x (g_nodes h0)) by (apply Fni; left; auto).
    assert (Hy : In y (g_nodes h0)) by (apply Fni; right; left; auto).
    assert (Nxy : x <> y) by (inversion Nd as [|? ? K _]; intros ->; apply K; left; auto).
    assert (Ex : n_edges h x = keep (aDE a) (n_edges h0 x)) by (rewrite (i_n_edges _ _ _ I), N1 by auto; apply app_nil_r).
    assert (Ey : n_edges h y = keep (aDE a) (n_edges h0 y)) by (rewrite (i_n_edges _ _ _ I), N1 by auto; apply app_nil_r).
    assert (Ix : In e (n_edges h0 x)) by (apply (t_ne h0 T); auto; rewrite En; left; auto).
    assert (Iy : In e (n_edges h0 y)) by (apply (t_ne h0 T); auto; rewrite En; right; left; auto).
    unfold del_edge. rewrite bind_gets, Fn, En. rewrite bind_item0.
    destruct (rem_from_one (@n_edges F) set_n_edges x e h) as (m1 & E1 & H1).
    { rewrite Ex. apply keep_NoDup. apply (t_node_edges h0 T). auto. }
    { rewrite Ex. apply keep_In. auto. }
    unfold put_n_edges. unfold bind at 1. unfold put_one in E1. rewrite E1. clear E1. rewrite bind_item1.
    destruct (rem_from_one (@n_edges F) set_n_edges y e (set_n_edges h m1)) as (m2 & E2 & H2).
    { cbn. rewrite H1. apply Nat.eqb_neq in Nxy. rewrite Nat.eqb_sym, Nxy, Ey. apply keep_NoDup. apply (t_node_edges h0 T). auto. }
    { cbn. rewrite H1. apply Nat.eqb_neq in Nxy. rewrite Nat.eqb_sym, Nxy, Ey. apply keep_In. auto. }
    unfold bind at 1. unfold put_one in E2. rewrite E2. clear E2. cbn [n_edges set_n_edges] in H2.
    rewrite bind_gets. cbn [e_faces set_n_edges].
    assert (Ef : e_faces h e = keep (aD a) (e_faces h0 e)) by (rewrite (i_e_faces _ _ _ I), N2 by auto; apply app_nil_r).
    rewrite Ef. set (fs := keep (aD a) (e_faces h0 e)).
    destruct (t_edge_faces h0 T e He) as (_ & Efd & Efi).
    assert (Hfs : forall f, In f fs -> In f (g_faces h0) /\ In e (f_edges h0 f)).
    { intros f Hf. apply keep_In in Hf as [Hf _]. split; [auto|]. apply (t_ef h0 T); auto. }
    destruct (rem_from_all (@f_edges F) set_f_edges ltac:(auto) ltac:(auto) ltac:(intros []; auto) e fs
      (set_n_edges (set_n_edges h m1) m2)) as (m3 & E3 & H3).
    { apply keep_NoDup. auto. }
    { intros f Hf. cbn. destruct (Hfs f Hf) as [K1 K2]. pose proof (t_face_alloc h0 T f K1) as Lf.
      destruct (i_f_old _ _ _ I f Lf) as (_ & _ & _ & _ & K). rewrite K. split.
      - apply keep_NoDup. apply (t_face_edges h0 T). auto.
      - apply keep_In. split; auto. rewrite sel_In. auto. }
    unfold put_f_edges. unfold bind at 1. unfold put_one in E3. rewrite E3. clear E3.
    cbn [f_edges set_n_edges] in H3.
    rewrite bind_gets. cbn [g_zones set_n_edges set_f_edges].
    destruct (fixed_fields _ _ (i_fixed _ _ _ I)) as (_ & _ & _ & _ & _ & Gz & _). rewrite Gz.
    destruct (rem_if_all (@z_edges F) set_z_edges ltac:(auto) ltac:(auto) ltac:(intros []; auto) e (g_zones h0)
      (set_f_edges (set_n_edges (set_n_edges h m1) m2) m3)) as (m4 & E4 & H4).
    { intros z Hz. cbn. rewrite (i_z_edges _ _ _ I), N3 by auto. cbn. rewrite app_nil_r. apply keep_NoDup.
      apply zone_edges_nd. auto. }
    unfold put_z_edges. unfold bind at 1. unfold put_one in E4. rewrite E4. clear E4.
    cbn [z_edges set_n_edges set_f_edges] in H4.
    unfold remove_from. rewrite bind_gets. cbn [g_edges set_n_edges set_f_edges set_z_edges].
    rewrite (i_g_edges _ _ _ I), N4. cbn [map]. rewrite app_nil_r.
    rewrite remove1_keep; [|apply keep_NoDup; apply (t_edges_nd h0 T)|apply keep_In; auto].
    eexists. split; [reflexivity|]. split; [reflexivity|].
    rewrite !keep_snoc.
    constructor; cbn [aD aDE aRM aNE aEF aNF aPts aFD aEn aAF aAE aZF aZE aZN]; try (apply I); rewrite ?N1, ?N2, ?N3, ?N4;
      try (intros ? ? K; inversion K; fail).
    - cbn. rewrite app_nil_r. auto.
    - intros n Hn. cbn. rewrite app_nil_r, H2, H1.
      pose proof (i_n_edges _ _ _ I n Hn) as K. rewrite N1 in K. cbn in K. rewrite app_nil_r in K. rewrite K.
      destruct (Nat.eqb_spec n y) as [->|M1].
      + apply Nat.eqb_neq in Nxy. rewrite Nat.eqb_sym, Nxy. apply keep_snoc.
      + destruct (Nat.eqb_spec n x) as [->|M2]; [apply keep_snoc|]. symmetry. apply keep_snoc_out.
        intros J. apply (t_ne h0 T) in J; auto. rewrite En in J. destruct J as [J|[J|[]]]; congruence.
    - intros n Hn. cbn in *. rewrite H2, H1. destruct (i_n_new _ _ _ I n Hn) as [K1 K2]. rewrite N1 in K1.
      apply (t_node_alloc h0 T) in Hx. apply (t_node_alloc h0 T) in Hy.
      destruct (Nat.eqb_spec n y) as [M1|M1]; [lia|]. destruct (Nat.eqb_spec n x) as [M2|M2]; [lia|]. auto.
    - intros d Hd1 Hd2. pose proof (i_e_faces _ _ _ I d Hd1) as K. rewrite N2 in K. apply K.
      intros J. apply Hd2. apply in_app_iff. auto.
    - intros f Hf. cbn. destruct (i_f_old _ _ _ I f Hf) as (K1 & K2 & K3 & K4 & K5). repeat split; auto.
      rewrite sel_app. destruct (H3 f) as [L1 L2]. destruct (in_dec Nat.eq_dec f fs) as [J|J].
      + rewrite L1, K5, keep_keep by auto. f_equal. f_equal.
        assert (Nf : NoDup fs) by (apply keep_NoDup; auto). revert Nf J. generalize fs. intros l Nl Hl.
        induction l as [|g l IH]; [destruct Hl|]. cbn. inversion Nl as [|? ? Q1 Q2]; subst.
        unfold sel. cbn. destruct (Nat.eqb_spec g f) as [->|M]; cbn.
        * f_equal. symmetry. apply sel_none. intros z J. apply in_map_iff in J as (w & J & J'). injection J as -> _. auto.
        * apply IH; auto. destruct Hl; [congruence|auto].
      + rewrite L2, K5 by auto. rewrite (sel_none (map _ fs)); [rewrite app_nil_r; auto|].
        intros z K. apply in_map_iff in K as (w & K & K'). injection K as -> _. auto.
    - intros f Hf. cbn in *. destruct (H3 f) as [L1 L2]. rewrite L2.
      + pose proof (i_f_new _ _ _ I f Hf) as K. rewrite N2 in K. exact K.
      + intros J. apply Hfs in J as [J _]. apply (t_face_alloc h0 T) in J. lia.
    - intros z Hz. cbn. rewrite app_nil_r. destruct (H4 z) as [L1 _]. rewrite L1 by auto.
      rewrite (i_z_edges _ _ _ I z Hz), N3. cbn. rewrite app_nil_r. apply keep_snoc.
  Qed.

  (** *** Several links in a row. *)
  Definition binds {B} (L : list op) (k : M B) : M B := fold_right (fun o m => bind (run_op o) (fun _ => m)) k L.
  Definition do_ops (a : acc) (L : list op) : acc := fold_left (do_op h0) L a.

  (** Conditions on one link apart from the number of faces of an edge. *)
  Definition valid1 (a : acc) (o : op) : Prop :=
    match o with
    | oEF e f => (old_e h0 e /\ ~ In e (aDE a) \/ new_e h0 a e) /\ new_f h0 a f
    | _ => valid h0 a o
    end.

  Fixpoint valids (a : acc) (L : list op) : Prop :=
    match L with [] => True | o :: r => valid1 a o /\ valids (do_op h0 a o) r end.

  Lemma do_op_D : forall a o, aD (do_op h0 a o) = aD a.
  Proof. intros a []; reflexivity. Qed.

  Lemma cap_mono : forall L a e, cap h0 a e <= cap h0 (do_ops a L) e.
  Proof.
    induction L as [|o L IH]; intros a e; cbn; [lia|].
    etransitivity; [|apply IH]. unfold cap. rewrite do_op_D.
    destruct o; try apply Nat.le_refl. cbn [do_op aEF]. rewrite sel_app, app_length, Nat.add_assoc. apply Nat.le_add_r.
  Qed.

  Lemma ops_inv : forall B L (k : M B) a h, Inv h0 a h -> valids a L ->
    (forall e f, In (oEF e f) L -> cap h0 (do_ops a L) e <= 2) ->
    exists h', binds L k h = k h' /\ Inv h0 (do_ops a L) h'.
  Proof.
    intros B L. induction L as [|o L IH]; intros k a h I V C.
    - exists h. split; [reflexivity|exact I].
    - destruct V as [V1 V2]. destruct (op_inv h0 T a h o I) as (h1 & E1 & I1).
      { destruct o; try exact V1. destruct V1 as [K1 K2]. cbn. split; auto. split; auto.
        specialize (C e f (or_introl eq_refl)). cbn [do_ops fold_left] in C.
        assert (Q : cap h0 (do_op h0 a (oEF e f)) e <= 2).
        { etransitivity; [apply cap_mono|]. exact C. }
        revert Q. unfold cap. cbn [do_op aD aEF]. rewrite sel_app, sel_one_same, app_length. cbn. lia. }
      destruct (IH k _ h1 I1 V2) as (h2 & E2 & I2).
      { intros e f K. apply (C e f). right; auto. }
      exists h2. split; [|exact I2]. cbn [binds fold_right]. unfold bind at 1. rewrite E1. exact E2.
  Qed.
End Del.
