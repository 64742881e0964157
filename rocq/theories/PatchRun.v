(** Running the atomic transformations: an account of all changes made so far. *)

From Coq Require Import ZArith NArith Ascii String Bool Lia List Permutation.
From Verif Require Import Py PyLemmas Heap HeapLemmas GridModel GridSpec DecompProofs LoadPlace Atomic AtomicSpec PatchProofs.
Import ListNotations.
Open Scope list_scope.
Open Scope nat_scope.

Section Run.
  Context {F : FloatOps}.

  (** Deleted faces and edges, edges removed from faces, links made (node-edge,
      edge-face, node-face), points of new nodes, data of new faces, number of new
      edges, faces and edges entered in the grid with their numbers, faces, edges and
      nodes entered in zones. *)
  Record acc : Type := mkAcc {
    aD : list nat; aDE : list nat; aRM : list (nat * nat);
    aNE : list (nat * nat); aEF : list (nat * nat); aNF : list (nat * nat);
    aPts : list pt; aFD : list (dict str val); aEn : nat;
    aAF : list (nat * Z); aAE : list (nat * Z);
    aZF : list (nat * nat); aZE : list (nat * nat); aZN : list (nat * nat)
  }.

  Definition acc0 : acc := mkAcc [] [] [] [] [] [] [] [] 0 [] [] [] [] [].

  (** Attributes that are never changed. *)
  Definition fixed_part (h : heap) :=
    (z_id h, z_name h, z_fixed h, next_z h, g_name h, g_zones h, g_nborder h).

  Record Inv (h0 : heap) (a : acc) (h : heap) : Prop := {
    i_fixed : fixed_part h = fixed_part h0;
    i_next_n : next_n h = next_n h0 + length (aPts a);
    i_next_e : next_e h = next_e h0 + aEn a;
    i_next_f : next_f h = next_f h0 + length (aFD a);
    i_g_nodes : g_nodes h = g_nodes h0 ++ seq (next_n h0) (length (aPts a));
    i_g_edges : g_edges h = keep (aDE a) (g_edges h0) ++ map fst (aAE a);
    i_g_faces : g_faces h = keep (aD a) (g_faces h0) ++ map fst (aAF a);
    i_bag : forall r, In r (g_bag h) <-> In r (g_bag h0) \/ In r (map rnd (aPts a));
    (* nodes *)
    i_n_edges : forall n, In n (g_nodes h0) -> n_edges h n = keep (aDE a) (n_edges h0 n) ++ sel (aNE a) n;
    i_n_faces : forall n, In n (g_nodes h0) -> n_faces h n = keep (aD a) (n_faces h0 n) ++ sel (aNF a) n;
    i_n_new : forall n, next_n h0 <= n < next_n h -> n_edges h n = sel (aNE a) n /\ n_faces h n = sel (aNF a) n;
    i_n_old : forall n, n < next_n h0 -> n_p h n = n_p h0 n /\ n_glo h n = n_glo h0 n /\ n_rc h n = n_rc h0 n /\
      n_border h n = n_border h0 n;
    i_n_pt : forall i p, nth_error (aPts a) i = Some p -> n_p h (next_n h0 + i) = p /\
      n_rc h (next_n h0 + i) = rnd p /\ n_glo h (next_n h0 + i) = Z.of_nat (length (g_nodes h0) + i);
    (* edges *)
    i_e_nodes : forall e, e < next_e h0 -> e_nodes h e = e_nodes h0 e /\ e_glo h e = e_glo h0 e;
    i_e_faces : forall e, In e (g_edges h0) -> ~ In e (aDE a) -> e_faces h e = keep (aD a) (e_faces h0 e) ++ sel (aEF a) e;
    i_e_new : forall e, next_e h0 <= e < next_e h -> e_nodes h e = sel (turn (aNE a)) e /\ e_faces h e = sel (aEF a) e;
    i_e_glo : forall e g, In (e, g) (aAE a) -> e_glo h e = g;
    (* faces *)
    i_f_old : forall f, f < next_f h0 -> f_nodes h f = f_nodes h0 f /\ f_data h f = f_data h0 f /\
      f_glo h f = f_glo h0 f /\ f_zone h f = f_zone h0 f /\ f_edges h f = keep (sel (aRM a) f) (f_edges h0 f);
    i_f_new : forall f, next_f h0 <= f < next_f h -> f_nodes h f = sel (turn (aNF a)) f /\
      f_edges h f = sel (turn (aEF a)) f;
    i_f_data : forall i d, nth_error (aFD a) i = Some d -> f_data h (next_f h0 + i) = d;
    i_f_glo : forall f g, In (f, g) (aAF a) -> f_glo h f = g;
    i_f_zone : forall f z, In (z, f) (aZF a) -> f_zone h f = Some z;
    i_f_zone_none : forall f, next_f h0 <= f < next_f h -> ~ In f (map snd (aZF a)) -> f_zone h f = None;
    (* zones *)
    i_z_faces : forall z, In z (g_zones h0) -> z_faces h z = keep (aD a) (z_faces h0 z) ++ sel (aZF a) z;
    i_z_edges : forall z, In z (g_zones h0) -> z_edges h z = keep (aDE a) (z_edges h0 z) ++ sel (aZE a) z;
    i_z_nodes : forall z, In z (g_zones h0) -> z_nodes h z = z_nodes h0 z ++ sel (aZN a) z;
    (* ranges *)
    i_NE : forall n e, In (n, e) (aNE a) -> n < next_n h /\ next_e h0 <= e < next_e h;
    i_NF : forall n f, In (n, f) (aNF a) -> n < next_n h /\ next_f h0 <= f < next_f h;
    i_EF : forall e f, In (e, f) (aEF a) -> e < next_e h /\ next_f h0 <= f < next_f h;
    i_AE : forall e g, In (e, g) (aAE a) -> next_e h0 <= e < next_e h;
    i_AF : forall f g, In (f, g) (aAF a) -> next_f h0 <= f < next_f h;
    i_ZF : forall z f, In (z, f) (aZF a) -> In z (g_zones h0) /\ next_f h0 <= f < next_f h
  }.

  Lemma fixed_fields : forall h h', fixed_part h' = fixed_part h ->
    z_id h' = z_id h /\ z_name h' = z_name h /\ z_fixed h' = z_fixed h /\ next_z h' = next_z h /\
    g_name h' = g_name h /\ g_zones h' = g_zones h /\ g_nborder h' = g_nborder h.
  Proof. intros h h' E. unfold fixed_part in E. injection E; intros. repeat split; auto. Qed.

  Lemma sel_app : forall a b x, sel (a ++ b) x = sel a x ++ sel b x.
  Proof. intros a b x. unfold sel. rewrite filter_app, map_app. auto. Qed.
  Lemma turn_app : forall a b, turn (a ++ b) = turn a ++ turn b.
  Proof. intros a b. unfold turn. apply map_app. Qed.
  Lemma sel_one_same : forall x y, sel [(x, y)] x = [y].
  Proof. intros x y. unfold sel. cbn. rewrite Nat.eqb_refl. auto. Qed.
  Lemma sel_one_other : forall x y z, x <> z -> sel [(x, y)] z = [].
  Proof. intros x y z H. unfold sel. cbn. apply Nat.eqb_neq in H. rewrite H. auto. Qed.
  Lemma sel_none : forall L x, (forall y, ~ In (x, y) L) -> sel L x = [].
  Proof.
    intros L x H. destruct (sel L x) as [|y r] eqn:E; auto. exfalso. apply (H y). apply sel_In. rewrite E. left; auto.
  Qed.

  Lemma inv_start : forall h, topo_ok h -> Inv h acc0 h.
  Proof.
    intros h T. constructor; cbn; intros; rewrite ?keep_nil, ?app_nil_r, ?Nat.add_0_r; auto;
      try tauto; try lia; try contradiction.
    - destruct i; discriminate.
    - destruct i; discriminate.
  Qed.

  (** The grid at the start. *)
  Variable h0 : heap.
  Hypothesis T : topo_ok h0.
  Hypothesis ZO : zones_ok h0.

  (** *** Creation. *)
  Lemma new_face_inv : forall a h d, Inv h0 a h ->
    exists h', copy_face d h = (Ok (length (aFD a) + next_f h0), h') /\ Inv h0 (mkAcc (aD a) (aDE a) (aRM a) (aNE a) (aEF a) (aNF a) (aPts a) (aFD a ++ [d]) (aEn a)
                    (aAF a) (aAE a) (aZF a) (aZE a) (aZN a)) h'.
  Proof.
    intros a h d I. pose proof (i_next_f _ _ _ I) as Nf.
    rewrite (Nat.add_comm (length (aFD a))), <- Nf. eexists. split; [reflexivity|].
    assert (U : forall A (m : nat -> A) v j, j <> next_f h -> upd m (next_f h) v j = m j) by (intros; apply upd_other; auto).
    constructor; cbn [aD aDE aRM aNE aEF aNF aPts aFD aEn aAF aAE aZF aZE aZN]; try (apply I).
    - cbn. rewrite app_length. cbn. lia.
    - intros f Hf. cbn. rewrite !U by lia. apply (i_f_old _ _ _ I); auto.
    - intros f Hf. cbn in *. destruct (Nat.eq_dec f (next_f h)) as [->|N].
      + rewrite !upd_same. rewrite !sel_none; auto.
        * intros y H. rewrite turn_In in H. apply (i_EF _ _ _ I) in H. lia.
        * intros y H. rewrite turn_In in H. apply (i_NF _ _ _ I) in H. lia.
      + rewrite !U by auto. apply (i_f_new _ _ _ I). lia.
    - intros i d' H. cbn. destruct (Nat.eq_dec i (length (aFD a))) as [->|N].
      + rewrite nth_error_app2, Nat.sub_diag in H by lia. cbn in H. injection H as <-.
        rewrite <- Nf. apply upd_same.
      + assert (i < length (aFD a ++ [d])) by (apply nth_error_Some; congruence). rewrite app_length in H0. cbn in H0.
        rewrite nth_error_app1 in H by lia. rewrite U by lia. apply (i_f_data _ _ _ I); auto.
    - intros f g H. cbn. pose proof (i_AF _ _ _ I f g H). rewrite U by lia. apply (i_f_glo _ _ _ I); auto.
    - intros f z H. cbn. pose proof (i_ZF _ _ _ I z f H). rewrite U by lia. apply (i_f_zone _ _ _ I); auto.
    - intros f Hf H. cbn in *. destruct (Nat.eq_dec f (next_f h)) as [->|N]; [apply upd_same|].
      rewrite U by auto. apply (i_f_zone_none _ _ _ I); auto. lia.
    - intros n f H. cbn. apply (i_NF _ _ _ I) in H. lia.
    - intros n f H. cbn. apply (i_EF _ _ _ I) in H. lia.
    - intros n f H. cbn. apply (i_AF _ _ _ I) in H. lia.
    - intros n f H. cbn. apply (i_ZF _ _ _ I) in H. destruct H. split; auto. lia.
  Qed.

  Lemma new_edge_inv : forall a h, Inv h0 a h ->
    exists h', new_edge h = (Ok (aEn a + next_e h0), h') /\ Inv h0 (mkAcc (aD a) (aDE a) (aRM a) (aNE a) (aEF a) (aNF a) (aPts a) (aFD a) (S (aEn a))
                    (aAF a) (aAE a) (aZF a) (aZE a) (aZN a)) h'.
  Proof.
    intros a h I. pose proof (i_next_e _ _ _ I) as Nf.
    rewrite (Nat.add_comm (aEn a)), <- Nf. eexists. split; [reflexivity|].
    assert (U : forall A (m : nat -> A) v j, j <> next_e h -> upd m (next_e h) v j = m j) by (intros; apply upd_other; auto).
    constructor; cbn [aD aDE aRM aNE aEF aNF aPts aFD aEn aAF aAE aZF aZE aZN]; try (apply I).
    - cbn. lia.
    - intros e He. cbn. rewrite !U by lia. apply (i_e_nodes _ _ _ I); auto.
    - intros e He Hd. cbn in *. destruct (Nat.eq_dec e (next_e h)) as [->|N].
      + apply (t_edge_alloc h0 T) in He. lia.
      + rewrite U by auto. apply (i_e_faces _ _ _ I); auto.
    - intros f Hf. cbn in *. destruct (Nat.eq_dec f (next_e h)) as [->|N].
      + rewrite !upd_same. rewrite !sel_none; auto.
        * intros y H. apply (i_EF _ _ _ I) in H. lia.
        * intros y H. rewrite turn_In in H. apply (i_NE _ _ _ I) in H. lia.
      + rewrite !U by auto. apply (i_e_new _ _ _ I). lia.
    - intros f g H. cbn. pose proof (i_AE _ _ _ I f g H). rewrite U by lia. apply (i_e_glo _ _ _ I); auto.
    - intros n f H. cbn. apply (i_NE _ _ _ I) in H. lia.
    - intros n f H. cbn. apply (i_EF _ _ _ I) in H. lia.
    - intros n f H. cbn. apply (i_AE _ _ _ I) in H. lia.
  Qed.

  Definition pt_new (a : acc) (p : pt) : Prop := ~ In (rnd p) (g_bag h0) /\ ~ In (rnd p) (map rnd (aPts a)).

  Lemma place_node_inv : forall a h z p, Inv h0 a h -> In z (g_zones h0) -> pt_new a p ->
    exists h', place_node z p h = (Ok (length (aPts a) + next_n h0), h') /\
      Inv h0 (mkAcc (aD a) (aDE a) (aRM a) (aNE a) (aEF a) (aNF a) (aPts a ++ [p]) (aFD a) (aEn a)
                    (aAF a) (aAE a) (aZF a) (aZE a) (aZN a ++ [(z, length (aPts a) + next_n h0)])) h'.
  Proof.
    intros a h z p I Hz [P1 P2].
    pose proof (i_next_n _ _ _ I) as Nn.
    rewrite (Nat.add_comm (length (aPts a))), <- Nn. set (k := next_n h) in *.
    assert (U : forall A (m : nat -> A) v j, j <> k -> upd m k v j = m j) by (intros; apply upd_other; auto).
    assert (B : mem (rc_eqb (rnd p)) (g_bag h) = false).
    { apply not_true_iff_false. rewrite mem_rc. rewrite (i_bag _ _ _ I). tauto. }
    unfold place_node, bind, new_node, add_node, bind, find_near_node. cbn -[upd mem seq]. fold k.
    rewrite upd_same, B. cbn -[upd mem seq]. fold k. rewrite upd_same, B. unfold zone_add_node, modify, ret.
    rewrite Nat.eqb_refl. cbn -[upd mem seq]. eexists. split; [reflexivity|].
    constructor; cbn [aD aDE aRM aNE aEF aNF aPts aFD aEn aAF aAE aZF aZE aZN]; try (apply I).
    - cbn. rewrite app_length. cbn. fold k. lia.
    - cbn -[seq]. fold k. rewrite app_length, seq_app. cbn. rewrite <- Nn, (i_g_nodes _ _ _ I), app_assoc. auto.
    - intros r. cbn. rewrite in_app_iff, (i_bag _ _ _ I), map_app, in_app_iff. cbn. tauto.
    - intros n Hn. cbn. fold k. assert (n < next_n h0) by (apply (t_node_alloc h0 T); auto).
      rewrite U by lia. apply (i_n_edges _ _ _ I); auto.
    - intros n Hn. cbn. fold k. assert (n < next_n h0) by (apply (t_node_alloc h0 T); auto).
      rewrite U by lia. apply (i_n_faces _ _ _ I); auto.
    - intros n Hn. cbn in *. fold k in Hn |- *. destruct (Nat.eq_dec n k) as [->|N].
      + rewrite !upd_same. rewrite !sel_none; auto.
        * intros y H. apply (i_NF _ _ _ I) in H. fold k in H. lia.
        * intros y H. apply (i_NE _ _ _ I) in H. fold k in H. lia.
      + rewrite !U by auto. apply (i_n_new _ _ _ I). fold k. lia.
    - intros n Hn. cbn. fold k. rewrite !U by lia. apply (i_n_old _ _ _ I); auto.
    - intros i q H. cbn. fold k. destruct (Nat.eq_dec i (length (aPts a))) as [->|N].
      + rewrite nth_error_app2, Nat.sub_diag in H by lia. cbn in H. injection H as <-.
        rewrite <- Nn, !upd_same. split; auto. split; auto.
        rewrite (i_g_nodes _ _ _ I), app_length, seq_length. auto.
      + assert (K : i < length (aPts a ++ [p])) by (apply nth_error_Some; congruence). rewrite app_length in K. cbn in K.
        rewrite nth_error_app1 in H by lia. rewrite !U by lia. apply (i_n_pt _ _ _ I); auto.
    - intros y Hy. cbn. rewrite sel_app. destruct (Nat.eq_dec y z) as [->|N].
      + rewrite upd_same, sel_one_same, (i_z_nodes _ _ _ I), app_assoc by auto. auto.
      + rewrite upd_other, sel_one_other, app_nil_r by auto. apply (i_z_nodes _ _ _ I); auto.
    - intros n f H. cbn. fold k. apply (i_NE _ _ _ I) in H. fold k in H. lia.
    - intros n f H. cbn. fold k. apply (i_NF _ _ _ I) in H. fold k in H. lia.
  Qed.

  (** *** Links. *)
  Inductive op :=
  | oNE (n e : nat) | oNF (n f : nat) | oEF (e f : nat)
  | oAF (f : nat) (g : option Z) | oAE (e : nat) (g : option Z)
  | oZF (z f : nat) | oZE (z e : nat) | oRM (f e : nat).

  Definition run_op (o : op) : M unit :=
    match o with
    | oNE n e => link_node_edge n e
    | oNF n f => link_node_face n f
    | oEF e f => link_edge_face e f
    | oAF f g => add_face f g
    | oAE e g => add_edge e g
    | oZF z f => zone_add_face z f
    | oZE z e => zone_add_edge z e
    | oRM f e => remove_from (fun h => f_edges h f) (put_f_edges f) (Nat.eqb e)
    end.

  Definition flen (a : acc) : nat := length (keep (aD a) (g_faces h0)) + length (aAF a).
  Definition elen (a : acc) : nat := length (keep (aDE a) (g_edges h0)) + length (aAE a).

  Definition do_op (a : acc) (o : op) : acc :=
    match o with
    | oNE n e => mkAcc (aD a) (aDE a) (aRM a) (aNE a ++ [(n, e)]) (aEF a) (aNF a) (aPts a) (aFD a) (aEn a)
                    (aAF a) (aAE a) (aZF a) (aZE a) (aZN a)
    | oNF n f => mkAcc (aD a) (aDE a) (aRM a) (aNE a) (aEF a) (aNF a ++ [(n, f)]) (aPts a) (aFD a) (aEn a)
                    (aAF a) (aAE a) (aZF a) (aZE a) (aZN a)
    | oEF e f => mkAcc (aD a) (aDE a) (aRM a) (aNE a) (aEF a ++ [(e, f)]) (aNF a) (aPts a) (aFD a) (aEn a)
                    (aAF a) (aAE a) (aZF a) (aZE a) (aZN a)
    | oAF f g => mkAcc (aD a) (aDE a) (aRM a) (aNE a) (aEF a) (aNF a) (aPts a) (aFD a) (aEn a)
                    (aAF a ++ [(f, match g with Some x => x | None => Z.of_nat (flen a) end)]) (aAE a) (aZF a) (aZE a) (aZN a)
    | oAE e g => mkAcc (aD a) (aDE a) (aRM a) (aNE a) (aEF a) (aNF a) (aPts a) (aFD a) (aEn a)
                    (aAF a) (aAE a ++ [(e, match g with Some x => x | None => Z.of_nat (elen a) end)]) (aZF a) (aZE a) (aZN a)
    | oZF z f => mkAcc (aD a) (aDE a) (aRM a) (aNE a) (aEF a) (aNF a) (aPts a) (aFD a) (aEn a)
                    (aAF a) (aAE a) (aZF a ++ [(z, f)]) (aZE a) (aZN a)
    | oZE z e => mkAcc (aD a) (aDE a) (aRM a) (aNE a) (aEF a) (aNF a) (aPts a) (aFD a) (aEn a)
                    (aAF a) (aAE a) (aZF a) (aZE a ++ [(z, e)]) (aZN a)
    | oRM f e => mkAcc (aD a) (aDE a) (aRM a ++ [(f, e)]) (aNE a) (aEF a) (aNF a) (aPts a) (aFD a) (aEn a)
                    (aAF a) (aAE a) (aZF a) (aZE a) (aZN a)
    end.

  Definition old_n (n : nat) := In n (g_nodes h0).
  Definition new_n (a : acc) (n : nat) := next_n h0 <= n < next_n h0 + length (aPts a).
  Definition old_e (e : nat) := In e (g_edges h0).
  Definition new_e (a : acc) (e : nat) := next_e h0 <= e < next_e h0 + aEn a.
  Definition new_f (a : acc) (f : nat) := next_f h0 <= f < next_f h0 + length (aFD a).

  (** Number of faces of an edge. *)
  Definition cap (a : acc) (e : nat) : nat :=
    (if e <? next_e h0 then length (keep (aD a) (e_faces h0 e)) else 0) + length (sel (aEF a) e).

  Definition valid (a : acc) (o : op) : Prop :=
    match o with
    | oNE n e => (old_n n \/ new_n a n) /\ new_e a e
    | oNF n f => (old_n n \/ new_n a n) /\ new_f a f
    | oEF e f => (old_e e /\ ~ In e (aDE a) \/ new_e a e) /\ new_f a f /\ cap a e < 2
    | oAF f _ => new_f a f /\ ~ In f (map fst (aAF a))
    | oAE e _ => new_e a e /\ ~ In e (map fst (aAE a))
    | oZF z f => In z (g_zones h0) /\ new_f a f /\ ~ In f (map snd (aZF a))
    | oZE z e => In z (g_zones h0)
    | oRM f e => In f (g_faces h0) /\ In e (f_edges h0 f) /\ ~ In e (sel (aRM a) f)
    end.

  Lemma remove1_keep : forall x l, NoDup l -> In x l -> remove1 (Nat.eqb x) l = Some (keep [x] l).
  Proof.
    intros x l H. induction H as [|y l Hy H IH]; intros Hx; [destruct Hx|].
    unfold keep. cbn. rewrite (Nat.eqb_sym x y). destruct (Nat.eqb_spec y x) as [->|N]; cbn.
    - f_equal. symmetry. apply (keep_id [x] l). intros z Hz [<-|[]]. auto.
    - rewrite IH; auto. destruct Hx; [congruence|auto].
  Qed.

  Lemma op_inv : forall a h o, Inv h0 a h -> valid a o ->
    exists h', run_op o h = (Ok tt, h') /\ Inv h0 (do_op a o) h'.
  Proof.
    intros a h o I V. destruct o as [n e|n f|e f|f g|e g|z f|z e|f e]; cbn [run_op do_op valid] in *.
    - (* node - edge *)
      destruct V as [Vn Ve]. unfold new_n, new_e, old_n in *.
      eexists. split; [reflexivity|].
      assert (Ln : n < next_n h).
      { rewrite (i_next_n _ _ _ I). destruct Vn as [Vn|Vn]; [apply (t_node_alloc h0 T) in Vn|]; lia. }
      rewrite <- (i_next_e _ _ _ I) in Ve.
      constructor; cbn [aD aDE aRM aNE aEF aNF aPts aFD aEn aAF aAE aZF aZE aZN]; try (apply I).
      + intros m Hm. cbn. rewrite sel_app. destruct (Nat.eq_dec m n) as [->|N].
        * rewrite upd_same, sel_one_same, (i_n_edges _ _ _ I), app_assoc; auto.
        * rewrite upd_other, sel_one_other, app_nil_r by auto. apply (i_n_edges _ _ _ I); auto.
      + intros m Hm. cbn in *. rewrite sel_app. destruct (i_n_new _ _ _ I m Hm) as [E1 E2]. split; auto.
        destruct (Nat.eq_dec m n) as [->|N].
        * rewrite upd_same, sel_one_same, E1. auto.
        * rewrite upd_other, sel_one_other, app_nil_r by auto. auto.
      + intros d Hd. cbn. rewrite upd_other by lia. apply (i_e_nodes _ _ _ I); auto.
      + intros d Hd. cbn in *. rewrite turn_app, sel_app. destruct (i_e_new _ _ _ I d Hd) as [E1 E2]. split; auto.
        destruct (Nat.eq_dec d e) as [->|N].
        * rewrite upd_same. cbn [turn map fst snd]. rewrite sel_one_same, E1. auto.
        * rewrite upd_other by auto. cbn [turn map fst snd]. rewrite sel_one_other, app_nil_r by auto. auto.
      + intros m d H. cbn. apply in_app_iff in H as [H|[H|[]]]; [apply (i_NE _ _ _ I); auto|].
        injection H as <- <-. auto.
    - (* node - face *)
      destruct V as [Vn Vf]. unfold new_n, new_f, old_n in *.
      eexists. split; [reflexivity|].
      assert (Ln : n < next_n h).
      { rewrite (i_next_n _ _ _ I). destruct Vn as [Vn|Vn]; [apply (t_node_alloc h0 T) in Vn|]; lia. }
      rewrite <- (i_next_f _ _ _ I) in Vf.
      constructor; cbn [aD aDE aRM aNE aEF aNF aPts aFD aEn aAF aAE aZF aZE aZN]; try (apply I).
      + intros m Hm. cbn. rewrite sel_app. destruct (Nat.eq_dec m n) as [->|N].
        * rewrite upd_same, sel_one_same, (i_n_faces _ _ _ I), app_assoc; auto.
        * rewrite upd_other, sel_one_other, app_nil_r by auto. apply (i_n_faces _ _ _ I); auto.
      + intros m Hm. cbn in *. rewrite sel_app. destruct (i_n_new _ _ _ I m Hm) as [E1 E2]. split; auto.
        destruct (Nat.eq_dec m n) as [->|N].
        * rewrite upd_same, sel_one_same, E2. auto.
        * rewrite upd_other, sel_one_other, app_nil_r by auto. auto.
      + intros d Hd. cbn. rewrite upd_other by lia. apply (i_f_old _ _ _ I); auto.
      + intros d Hd. cbn in *. rewrite turn_app, sel_app. destruct (i_f_new _ _ _ I d Hd) as [E1 E2]. split; auto.
        destruct (Nat.eq_dec d f) as [->|N].
        * rewrite upd_same. cbn [turn map fst snd]. rewrite sel_one_same, E1. auto.
        * rewrite upd_other by auto. cbn [turn map fst snd]. rewrite sel_one_other, app_nil_r by auto. auto.
      + intros m d H. cbn. apply in_app_iff in H as [H|[H|[]]]; [apply (i_NF _ _ _ I); auto|].
        injection H as <- <-. auto.
    - (* edge - face *)
      destruct V as (Ve & Vf & C). unfold new_e, new_f, old_e, cap in *.
      assert (Ln : e < next_e h).
      { rewrite (i_next_e _ _ _ I). destruct Ve as [[Vn _]|Vn]; [apply (t_edge_alloc h0 T) in Vn|]; lia. }
      rewrite <- (i_next_f _ _ _ I) in Vf. rewrite <- (i_next_e _ _ _ I) in Ve.
      assert (Ef : (length (e_faces h e) =? 2) = false).
      { apply Nat.eqb_neq. destruct Ve as [[Ve Vd]|Ve].
        - rewrite (i_e_faces _ _ _ I), app_length by auto. apply (t_edge_alloc h0 T) in Ve.
          apply Nat.ltb_lt in Ve. rewrite Ve in C. lia.
        - destruct (i_e_new _ _ _ I e Ve) as [_ ->]. destruct (Nat.ltb_spec e (next_e h0)); lia. }
      unfold link_edge_face. rewrite bind_gets, Ef. eexists. split; [reflexivity|].
      constructor; cbn [aD aDE aRM aNE aEF aNF aPts aFD aEn aAF aAE aZF aZE aZN]; try (apply I).
      + intros m Hm Hd. cbn. rewrite sel_app. destruct (Nat.eq_dec m e) as [->|N].
        * rewrite upd_same, sel_one_same, (i_e_faces _ _ _ I), app_assoc; auto.
        * rewrite upd_other, sel_one_other, app_nil_r by auto. apply (i_e_faces _ _ _ I); auto.
      + intros m Hm. cbn in *. rewrite sel_app. destruct (i_e_new _ _ _ I m Hm) as [E1 E2]. split; auto.
        destruct (Nat.eq_dec m e) as [->|N].
        * rewrite upd_same, sel_one_same, E2. auto.
        * rewrite upd_other, sel_one_other, app_nil_r by auto. auto.
      + intros d Hd. cbn. rewrite upd_other by lia. apply (i_f_old _ _ _ I); auto.
      + intros d Hd. cbn in *. rewrite turn_app, sel_app. destruct (i_f_new _ _ _ I d Hd) as [E1 E2]. split; auto.
        destruct (Nat.eq_dec d f) as [->|N].
        * rewrite upd_same. cbn [turn map fst snd]. rewrite sel_one_same, E2. auto.
        * rewrite upd_other by auto. cbn [turn map fst snd]. rewrite sel_one_other, app_nil_r by auto. auto.
      + intros m d H. cbn. apply in_app_iff in H as [H|[H|[]]]; [apply (i_EF _ _ _ I); auto|].
        injection H as <- <-. auto.
    - (* add face *)
      destruct V as [Vf Nf]. unfold new_f in *. rewrite <- (i_next_f _ _ _ I) in Vf.
      assert (L : length (g_faces h) = flen a).
      { rewrite (i_g_faces _ _ _ I), app_length, map_length. auto. }
      eexists. split; [reflexivity|].
      constructor; cbn [aD aDE aRM aNE aEF aNF aPts aFD aEn aAF aAE aZF aZE aZN]; try (apply I).
      + cbn. rewrite map_app, app_assoc, (i_g_faces _ _ _ I). auto.
      + intros d Hd. cbn. rewrite upd_other by lia. apply (i_f_old _ _ _ I); auto.
      + intros d x H. cbn. apply in_app_iff in H as [H|[H|[]]].
        * rewrite upd_other; [apply (i_f_glo _ _ _ I); auto|]. intros ->. apply Nf.
          apply in_map_iff. exists (f, x). auto.
        * injection H as <- <-. rewrite upd_same, L. auto.
      + intros d x H. cbn. apply in_app_iff in H as [H|[H|[]]]; [apply (i_AF _ _ _ I) in H; auto|].
        injection H as <- _. auto.
    - (* add edge *)
      destruct V as [Vf Nf]. unfold new_e in *. rewrite <- (i_next_e _ _ _ I) in Vf.
      assert (L : length (g_edges h) = elen a).
      { rewrite (i_g_edges _ _ _ I), app_length, map_length. auto. }
      eexists. split; [reflexivity|].
      constructor; cbn [aD aDE aRM aNE aEF aNF aPts aFD aEn aAF aAE aZF aZE aZN]; try (apply I).
      + cbn. rewrite map_app, app_assoc, (i_g_edges _ _ _ I). auto.
      + intros d Hd. cbn. rewrite upd_other by lia. apply (i_e_nodes _ _ _ I); auto.
      + intros d x H. cbn. apply in_app_iff in H as [H|[H|[]]].
        * rewrite upd_other; [apply (i_e_glo _ _ _ I); auto|]. intros ->. apply Nf.
          apply in_map_iff. exists (e, x). auto.
        * injection H as <- <-. rewrite upd_same, L. auto.
      + intros d x H. cbn. apply in_app_iff in H as [H|[H|[]]]; [apply (i_AE _ _ _ I) in H; auto|].
        injection H as <- _. auto.
    - (* zone - face *)
      destruct V as (Vz & Vf & Nf). unfold new_f in *. rewrite <- (i_next_f _ _ _ I) in Vf.
      pose proof (i_f_zone_none _ _ _ I f Vf Nf) as E.
      unfold zone_add_face. rewrite bind_gets, E. eexists. split; [reflexivity|].
      constructor; cbn [aD aDE aRM aNE aEF aNF aPts aFD aEn aAF aAE aZF aZE aZN]; try (apply I).
      + intros d Hd. cbn. rewrite upd_other by lia. apply (i_f_old _ _ _ I); auto.
      + intros d y H. cbn. apply in_app_iff in H as [H|[H|[]]].
        * rewrite upd_other; [apply (i_f_zone _ _ _ I); auto|]. intros ->. apply Nf.
          apply in_map_iff. exists (y, f). auto.
        * injection H as <- <-. apply upd_same.
      + intros d Hd N. cbn in *. rewrite map_app, in_app_iff in N. cbn in N.
        rewrite upd_other by (intros ->; tauto). apply (i_f_zone_none _ _ _ I); auto.
      + intros y Hy. cbn. rewrite sel_app. destruct (Nat.eq_dec y z) as [->|N].
        * rewrite upd_same, sel_one_same, (i_z_faces _ _ _ I), app_assoc by auto. auto.
        * rewrite upd_other, sel_one_other, app_nil_r by auto. apply (i_z_faces _ _ _ I); auto.
      + intros y d H. cbn. apply in_app_iff in H as [H|[H|[]]]; [apply (i_ZF _ _ _ I) in H; auto|].
        injection H as <- <-. auto.
    - (* zone - edge *)
      eexists. split; [reflexivity|].
      constructor; cbn [aD aDE aRM aNE aEF aNF aPts aFD aEn aAF aAE aZF aZE aZN]; try (apply I).
      + intros y Hy. cbn. rewrite sel_app. destruct (Nat.eq_dec y z) as [->|N].
        * rewrite upd_same, sel_one_same, (i_z_edges _ _ _ I), app_assoc by auto. auto.
        * rewrite upd_other, sel_one_other, app_nil_r by auto. apply (i_z_edges _ _ _ I); auto.
    - (* remove an edge from a face *)
      destruct V as (Vf & Ve & N). pose proof (t_face_alloc h0 T f Vf) as La.
      destruct (i_f_old _ _ _ I f La) as (_ & _ & _ & _ & E).
      destruct (t_face_edges h0 T f Vf) as (_ & Nd & _).
      unfold remove_from. rewrite bind_gets, E, remove1_keep; [|apply keep_NoDup; auto|apply keep_In; auto].
      eexists. split; [reflexivity|].
      constructor; cbn [aD aDE aRM aNE aEF aNF aPts aFD aEn aAF aAE aZF aZE aZN]; try (apply I).
      + intros d Hd. cbn. destruct (i_f_old _ _ _ I d Hd) as (K1 & K2 & K3 & K4 & K5). repeat split; auto.
        rewrite sel_app. destruct (Nat.eq_dec d f) as [->|Nd'].
        * rewrite upd_same, sel_one_same. apply keep_keep.
        * rewrite upd_other, sel_one_other, app_nil_r; auto.
      + intros d Hd. cbn in *. rewrite upd_other by lia. apply (i_f_new _ _ _ I); auto.
  Qed.
End Run.
