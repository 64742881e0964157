(** Replacement and deletion of a node in the contraction of an edge. *)

From Coq Require Import ZArith NArith Ascii String Bool Lia List Permutation.
From Verif Require Import Py PyLemmas Heap HeapLemmas GridModel GridSpec DecompProofs LoadPlace Atomic AtomicSpec
  PatchProofs PatchRun PatchDel CollapseRun.
Import ListNotations.
Open Scope list_scope.
Open Scope nat_scope.

Section Near.
  Context {F : FloatOps}.

  Lemma rc_eqb_eq : forall a b, rc_eqb a b = true <-> a = b.
  Proof. intros a b. unfold rc_eqb. destruct (rc_dec a b); split; intros; auto; discriminate. Qed.

  Lemma remove1_near : forall h n l, NoDup l -> In n l -> (forall m, In m l -> n_rc h m = n_rc h n -> m = n) ->
    remove1 (is_near h n) l = Some (keep [n] l).
  Proof.
    intros h n l Nd Hn Hm. rewrite <- (remove1_keep n l Nd Hn). clear Nd Hn.
    induction l as [|x l IH]; [reflexivity|]. cbn [remove1].
    assert (E : is_near h n x = (n =? x)).
    { unfold is_near. destruct (Nat.eqb_spec n x) as [->|D].
      - apply rc_eqb_eq. auto.
      - apply not_true_iff_false. intros K. apply rc_eqb_eq in K. apply D. symmetry. apply Hm; [left; auto|auto]. }
    rewrite E. destruct (n =? x); auto. rewrite IH; auto. intros m K. apply Hm. right; auto.
  Qed.

  Lemma near_none : forall h n l, (forall m, In m l -> n_rc h m <> n_rc h n) -> mem (is_near h n) l = false.
  Proof.
    intros h n l H. apply not_true_iff_false. intros K. unfold mem in K. apply existsb_exists in K as (m & K1 & K2).
    apply rc_eqb_eq in K2. apply (H m); auto.
  Qed.

  Section Attr.
    Variable get : heap -> nat -> list nat.
    Variable put : heap -> (nat -> list nat) -> heap.
    Hypothesis gp : forall h m, get (put h m) = m.
    Hypothesis pp : forall h a b, put (put h a) b = put h b.
    Hypothesis pg : forall h, put h (get h) = h.
    Hypothesis pr : forall h m, n_rc (put h m) = n_rc h.

    Lemma replace_one : forall x n n1 h, NoDup (get h x) -> In n (get h x) ->
      (forall m, In m (get h x) -> n_rc h m = n_rc h n -> m = n) ->
      exists m, (remove_node_from (fun h => get h x) (put_one get put x) n ;;;
                 (l <- gets (fun h => get h x) ;; put_one get put x (l ++ [n1]))) h = (Ok tt, put h m) /\
        forall y, m y = if Nat.eqb y x then keep [n] (get h y) ++ [n1] else get h y.
    Proof.
      intros x n n1 h Nd Hn Hm. unfold remove_node_from, remove_from. unfold bind at 1. rewrite bind_gets.
      rewrite remove1_near by auto. unfold put_one at 1. cbn [modify]. rewrite bind_gets. cbv beta. unfold put_one, modify.
      rewrite !gp, pp. eexists. split; [reflexivity|]. intros y. destruct (Nat.eqb_spec y x) as [->|D].
      - rewrite !upd_same. auto.
      - rewrite !upd_other by auto. auto.
    Qed.

    Lemma replace_all : forall n n1 xs h, NoDup xs ->
      (forall x, In x xs -> NoDup (get h x) /\ In n (get h x) /\ forall m, In m (get h x) -> n_rc h m = n_rc h n -> m = n) ->
      exists m, for_each xs (fun x => remove_node_from (fun h => get h x) (put_one get put x) n ;;;
                 (l <- gets (fun h => get h x) ;; put_one get put x (l ++ [n1]))) h = (Ok tt, put h m) /\
        forall y, m y = if in_dec Nat.eq_dec y xs then keep [n] (get h y) ++ [n1] else get h y.
    Proof.
      intros n n1 xs. induction xs as [|x xs IH]; intros h Hn H.
      - exists (get h). rewrite pg. split; [reflexivity|]. intros y. destruct (in_dec Nat.eq_dec y []) as [[]|]; auto.
      - inversion Hn as [|? ? Hx Hn']; subst. destruct (H x (or_introl eq_refl)) as (K1 & K2 & K3).
        destruct (replace_one x n n1 h K1 K2 K3) as (m & E & Hm).
        destruct (IH (put h m) Hn') as (m' & E' & Hm').
        { intros y Hy. rewrite gp, Hm, pr. destruct (Nat.eqb_spec y x) as [->|N]; [contradiction|]. apply H. right; auto. }
        exists m'. split.
        { cbn [for_each]. rewrite (bind_run _ _ _ _ _ _ _ E). cbv beta. rewrite E'. rewrite pp. auto. }
        intros y. rewrite Hm', gp, Hm.
        destruct (in_dec Nat.eq_dec y xs) as [J|J]; destruct (in_dec Nat.eq_dec y (x :: xs)) as [J'|J'];
          destruct (Nat.eqb_spec y x) as [Eq|Ne]; subst; auto; try contradiction.
        all: exfalso; cbn in J'; intuition congruence.
    Qed.

    Lemma none_all : forall n xs h, (forall x, In x xs -> forall m, In m (get h x) -> n_rc h m <> n_rc h n) ->
      for_each xs (fun x => remove_node_if (fun h => get h x) (put_one get put x) n) h = (Ok tt, h).
    Proof.
      intros n xs h. induction xs as [|x xs IH]; intros H; [reflexivity|]. cbn [for_each].
      unfold remove_node_if, remove_if. unfold bind at 1. rewrite bind_gets. rewrite near_none by (apply H; left; auto).
      apply IH. intros y Hy. apply H. right; auto.
    Qed.
  End Attr.

  Variable h0 : heap.

  (** [n1] takes the place of [n2]. *)
  Definition crp (n2 n1 : nat) (c : cst) : cst :=
    mkC (fun n => if Nat.eqb n n1 then cNE c n1 ++ cNE c n2 else cNE c n)
        (fun n => if Nat.eqb n n1 then cNF c n1 ++ cNF c n2 else cNF c n)
        (fun e => if in_dec Nat.eq_dec e (cNE c n2) then keep [n2] (cEN c e) ++ [n1] else cEN c e) (cEF c)
        (fun f => if in_dec Nat.eq_dec f (cNF c n2) then keep [n2] (cFN c f) ++ [n1] else cFN c f) (cFE c)
        (cZN c) (cZE c) (cZF c) (cGN c) (cGE c) (cGF c).

  Lemma v_replace : forall c h n1 n2, V h0 c h -> In n1 (g_nodes h0) -> In n2 (g_nodes h0) -> n1 <> n2 ->
    NoDup (cNE c n2) -> NoDup (cNF c n2) -> incl (cNE c n2) (g_edges h0) -> incl (cNF c n2) (g_faces h0) ->
    (forall e, In e (cNE c n2) -> NoDup (cEN c e) /\ In n2 (cEN c e) /\ forall m, In m (cEN c e) -> n_rc h m = n_rc h n2 -> m = n2) ->
    (forall f, In f (cNF c n2) -> NoDup (cFN c f) /\ In n2 (cFN c f) /\ forall m, In m (cFN c f) -> n_rc h m = n_rc h n2 -> m = n2) ->
    exists h', replacing_node n2 n1 h = (Ok tt, h') /\ V h0 (crp n2 n1 c) h' /\ spots h' = spots h.
  Proof.
    intros c h n1 n2 I H1 H2 D N1 N2 I1 I2 He Hf.
    unfold replacing_node. rewrite !bind_gets. cbv beta. unfold put_n_edges. rewrite bind_modify. cbv beta.
    rewrite !bind_gets. cbv beta. unfold put_n_faces. rewrite bind_modify. cbv beta. rewrite bind_gets. cbv beta.
    cbn [n_edges n_faces set_n_edges set_n_faces].
    set (h1 := set_n_faces _ _).
    rewrite (upd_other _ _ n1 _ n2) by auto. rewrite (v_ne _ _ _ I n2 H2).
    assert (Rc : n_rc h1 = n_rc h) by reflexivity.
    assert (En1 : forall e, In e (g_edges h0) -> e_nodes h1 e = cEN c e) by (intros e Q; exact (v_en _ _ _ I e Q)).
    assert (Fn1 : forall f, In f (g_faces h0) -> f_nodes h1 f = cFN c f) by (intros f Q; exact (v_fn _ _ _ I f Q)).
    destruct (replace_all (@e_nodes F) set_e_nodes ltac:(auto) ltac:(auto) ltac:(intros []; auto) ltac:(auto) n2 n1 (cNE c n2) h1 N1) as (m & E & Hm).
    { intros e K. rewrite En1 by auto. rewrite Rc. auto. }
    unfold put_one in E. unfold put_e_nodes. rewrite (bind_run _ _ _ _ _ _ _ E). clear E. cbv beta. rewrite bind_gets. cbv beta.
    assert (Nf1 : n_faces (set_e_nodes h1 m) n2 = cNF c n2).
    { unfold h1. cbn. rewrite upd_other by auto. apply (v_nf _ _ _ I). auto. }
    rewrite Nf1.
    destruct (replace_all (@f_nodes F) set_f_nodes ltac:(auto) ltac:(auto) ltac:(intros []; auto) ltac:(auto) n2 n1 (cNF c n2) (set_e_nodes h1 m) N2) as (m' & E & Hm').
    { intros f K. cbn [f_nodes set_e_nodes n_rc]. rewrite Fn1 by auto. rewrite Rc. auto. }
    unfold put_one in E. unfold put_f_nodes. rewrite E. clear E.
    eexists. split; [reflexivity|]. split; [|reflexivity].
    constructor; cbn [crp cNE cNF cEN cEF cFN cFE cZN cZE cZF cGN cGE cGF]; try (apply I).
    - intros n K. unfold h1. cbn. destruct (Nat.eqb_spec n n1) as [->|Q].
      + rewrite upd_same, !(v_ne _ _ _ I) by auto. auto.
      + rewrite upd_other, !(v_ne _ _ _ I) by auto. auto.
    - intros n K. unfold h1. cbn. destruct (Nat.eqb_spec n n1) as [->|Q].
      + rewrite upd_same, !(v_nf _ _ _ I) by auto. auto.
      + rewrite upd_other, !(v_nf _ _ _ I) by auto. auto.
    - intros e K. cbn. rewrite Hm, En1 by auto. auto.
    - intros f K. cbn. rewrite Hm'. cbn [f_nodes set_e_nodes]. rewrite Fn1 by auto. auto.
  Qed.

  Definition cdn (n z : nat) (c : cst) : cst :=
    mkC (cNE c) (cNF c) (cEN c) (cEF c) (cFN c) (cFE c)
        (fun y => if Nat.eqb y z then keep [n] (cZN c y) else cZN c y) (cZE c) (cZF c) (keep [n] (cGN c)) (cGE c) (cGF c).

  Lemma bag_remove_run : forall h r, NoDup (g_bag h) -> In r (g_bag h) ->
    exists b, bag_remove r h = (Ok tt, set_g_bag h b) /\ NoDup b /\ (forall x, In x b <-> In x (g_bag h) /\ x <> r).
  Proof.
    intros h r Nd Hr. unfold bag_remove. rewrite bind_gets.
    assert (X : forall l : list rc, NoDup l -> In r l -> exists b, remove1 (rc_eqb r) l = Some b /\ NoDup b /\ (forall x, In x b <-> In x l /\ x <> r)).
    { induction l as [|y l IH]; intros N H; [destruct H|]. inversion N as [|? ? Hy N']; subst. cbn [remove1].
      destruct (rc_eqb r y) eqn:E.
      - apply rc_eqb_eq in E. subst y. exists l. split; [auto|]. split; [auto|]. intros x. cbn. split.
        + intros K. split; [auto|]. intros ->. contradiction.
        + intros [[K|K] Q]; [congruence|auto].
      - assert (D : y <> r) by (intros ->; assert (Q : rc_eqb r r = true) by (apply rc_eqb_eq; auto); congruence).
        destruct H as [H|H]; [congruence|]. destruct (IH N' H) as (b & E1 & E2 & E3). rewrite E1.
        exists (y :: b). split; [auto|]. split.
        + constructor; auto. intros K. apply E3 in K. tauto.
        + intros x. cbn. rewrite E3. split; [intros [<-|[? ?]]; auto|intros [[K|K] Q]; auto]. }
    destruct (X _ Nd Hr) as (b & E & K). rewrite E. exists b. split; [reflexivity|exact K].
  Qed.

  Lemma v_del_node : forall c h n z f, V h0 c h -> In n (g_nodes h0) -> incl (cNE c n) (g_edges h0) -> incl (cNF c n) (g_faces h0) ->
    (forall e m, In e (cNE c n) -> In m (cEN c e) -> n_rc h m <> n_rc h n) ->
    (forall g m, In g (cNF c n) -> In m (cFN c g) -> n_rc h m <> n_rc h n) ->
    hd_error (cNF c n) = Some f -> f_zone h0 f = Some z -> In z (g_zones h0) ->
    NoDup (cZN c z) -> In n (cZN c z) -> incl (cZN c z) (cGN c) -> NoDup (cGN c) -> In n (cGN c) ->
    (forall m, In m (cGN c) -> n_rc h m = n_rc h n -> m = n) ->
    NoDup (g_bag h) -> In (n_rc h n) (g_bag h) ->
    exists h', del_node n h = (Ok tt, h') /\ V h0 (cdn n z c) h' /\ n_p h' = n_p h /\ n_rc h' = n_rc h /\
      NoDup (g_bag h') /\ (forall r, In r (g_bag h') <-> In r (g_bag h) /\ r <> n_rc h n).
  Proof.
    intros c h n z f I Hn I1 I2 He Hf Hd Fz Hz Nz Iz Iz2 Ng Ig Hr Nb Ib.
    destruct (frame_fields _ _ (v_fr _ _ _ I)) as ((_ & _ & _ & _ & _ & Gz) & _).
    unfold del_node. rewrite bind_gets. cbv beta. rewrite (v_ne _ _ _ I n Hn).
    pose proof (none_all (@e_nodes F) set_e_nodes n (cNE c n) h) as E.
    unfold put_one in E. unfold put_e_nodes. rewrite (bind_run _ _ _ _ _ _ _ (E ltac:(intros e K m; rewrite (v_en _ _ _ I) by auto; apply He; auto))).
    clear E. cbv beta. rewrite bind_gets. cbv beta. rewrite (v_nf _ _ _ I n Hn).
    pose proof (none_all (@f_nodes F) set_f_nodes n (cNF c n) h) as E.
    unfold put_one in E. unfold put_f_nodes. rewrite (bind_run _ _ _ _ _ _ _ (E ltac:(intros e K m; rewrite (v_fn _ _ _ I) by auto; apply Hf; auto))).
    clear E. cbv beta. rewrite bind_gets. cbv beta. rewrite (v_nf _ _ _ I n Hn).
    destruct (cNF c n) as [|f' r] eqn:Ef; [discriminate Hd|]. cbn in Hd. assert (f' = f) by congruence. subst f'.
    rewrite bind_item0. unfold zone_of. unfold bind at 1. rewrite Gz, Fz.
    unfold remove_node_from, remove_from. unfold bind at 1. rewrite bind_gets, (v_zn _ _ _ I z Hz).
    rewrite remove1_near; auto. unfold put_z_nodes. cbn [modify]. unfold bind at 1. rewrite bind_gets.
    cbn [g_nodes set_z_nodes]. rewrite (v_gn _ _ _ I).
    match goal with |- context [is_near ?hh n] => change (is_near hh n) with (is_near h n) end.
    rewrite remove1_near; auto. cbn [modify]. rewrite bind_gets. cbn [n_rc set_g_nodes set_z_nodes].
    match goal with |- exists h', bag_remove _ ?hh = _ /\ _ => destruct (bag_remove_run hh (n_rc h n)) as (b & E & Nb' & Hb) end; auto.
    rewrite E. eexists. split; [reflexivity|]. split; [|split; [reflexivity|split; [reflexivity|split; [exact Nb'|exact Hb]]]].
    constructor; cbn [cdn cNE cNF cEN cEF cFN cFE cZN cZE cZF cGN cGE cGF]; try (apply I).
    - intros y Hy. cbn. destruct (Nat.eqb_spec y z) as [->|D].
      + rewrite upd_same. auto.
      + rewrite upd_other by auto. apply (v_zn _ _ _ I). auto.
    - reflexivity.
  Qed.
End Near.
