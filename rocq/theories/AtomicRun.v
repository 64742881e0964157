(** Symbolic execution of the atomic transformations. *)

From Coq Require Import ZArith NArith Ascii String Bool Lia List Permutation.
From Verif Require Import Py PyLemmas Heap HeapLemmas GridModel GridSpec DecompProofs LoadPlace Atomic AtomicSpec
  PatchProofs PatchRun PatchDel PatchTmpl PatchDone.
Import ListNotations.
Open Scope list_scope.
Open Scope nat_scope.

Section Shape.
  Context {F : FloatOps}.

  Lemma perm2 : forall (a b : nat) l, length l = 2 -> NoDup l -> In a l -> In b l -> a <> b -> Permutation l [a; b].
  Proof.
    intros a b l L N Ha Hb D. symmetry. apply NoDup_Permutation_bis.
    - constructor; [|constructor; [intros []|constructor]]. intros [E|[]]; congruence.
    - cbn. lia.
    - intros x [<-|[<-|[]]]; auto.
  Qed.

  Lemma perm3 : forall (a b c : nat) l, length l = 3 -> NoDup l -> In a l -> In b l -> In c l ->
    a <> b -> a <> c -> b <> c -> Permutation l [a; b; c].
  Proof.
    intros a b c l L N Ha Hb Hc D1 D2 D3. symmetry. apply NoDup_Permutation_bis.
    - constructor; [intros [E|[E|[]]]; congruence|]. constructor; [intros [E|[]]; congruence|].
      constructor; [intros []|constructor].
    - cbn. lia.
    - intros x [<-|[<-|[<-|[]]]]; auto.
  Qed.

  Lemma third_exists : forall (a b : nat) l, length l = 3 -> NoDup l -> In a l -> In b l -> a <> b ->
    exists c, Permutation l [a; b; c].
  Proof.
    intros a b l L N Ha Hb D. destruct (in_split _ _ Ha) as (l1 & l2 & ->).
    assert (Hb' : In b (l1 ++ l2)).
    { apply in_app_iff in Hb as [Hb|[Hb|Hb]]; apply in_app_iff; auto. congruence. }
    destruct (in_split _ _ Hb') as (l3 & l4 & E).
    assert (L' : length (l3 ++ l4) = 1).
    { rewrite app_length in *. cbn in L. assert (Q : length (l1 ++ l2) = length (l3 ++ b :: l4)) by (rewrite E; auto).
      rewrite !app_length in Q. cbn in Q. lia. }
    destruct (l3 ++ l4) as [|c [|? ?]] eqn:E2; try discriminate L'. exists c.
    rewrite <- Permutation_middle. constructor. rewrite E. rewrite <- Permutation_middle. constructor. rewrite E2. auto.
  Qed.

  Lemma face_shape : forall h f e a b, topo_ok h -> In f (g_faces h) -> In e (f_edges h f) -> e_nodes h e = [a; b] ->
    exists c ea eb, Permutation (f_nodes h f) [a; b; c] /\ Permutation (f_edges h f) [e; ea; eb] /\
      Permutation (e_nodes h ea) [a; c] /\ Permutation (e_nodes h eb) [b; c].
  Proof.
    intros h f e a b T Hf He En.
    destruct (t_face_nodes h T f Hf) as (L & N & _). destruct (t_face_edges h T f Hf) as (L' & N' & Ie).
    pose proof (t_tri h T f e Hf He) as Tr. rewrite En in Tr.
    assert (Ha : In a (f_nodes h f)) by (apply Tr; left; auto).
    assert (Hb : In b (f_nodes h f)) by (apply Tr; right; left; auto).
    destruct (t_edge_nodes h T e (Ie _ He)) as (_ & Ne & _). rewrite En in Ne.
    assert (Dab : a <> b) by (inversion Ne as [|? ? K _]; intros ->; apply K; left; auto).
    destruct (third_exists a b _ L N Ha Hb Dab) as (c & P).
    assert (N3 : NoDup [a; b; c]) by (eapply Permutation_NoDup; eauto).
    assert (Hc : In c (f_nodes h f)) by (eapply Permutation_in; [symmetry; exact P|]; right; right; left; auto).
    assert (Dac : a <> c) by (inversion N3 as [|? ? K _]; intros ->; apply K; right; left; auto).
    assert (Dbc : b <> c).
    { inversion N3 as [|? ? _ K]. inversion K as [|? ? K' _]. intros ->; apply K'; left; auto. }
    destruct (t_pairs h T f a c Hf Ha Hc Dac) as (ea & A1 & A2 & A3).
    destruct (t_pairs h T f b c Hf Hb Hc Dbc) as (eb & B1 & B2 & B3).
    destruct (t_edge_nodes h T ea (Ie _ A1)) as (La & Na & _).
    destruct (t_edge_nodes h T eb (Ie _ B1)) as (Lb & Nb & _).
    assert (Pa : Permutation (e_nodes h ea) [a; c]) by (apply perm2; auto).
    assert (Pb : Permutation (e_nodes h eb) [b; c]) by (apply perm2; auto).
    exists c, ea, eb. split; auto. split; auto. apply perm3; auto.
    - intros <-. rewrite En in A3. destruct A3 as [K|[K|[]]]; congruence.
    - intros <-. rewrite En in B3. destruct B3 as [K|[K|[]]]; congruence.
    - intros <-. apply (Permutation_in _ Pb) in A2. destruct A2 as [K|[K|[]]]; congruence.
  Qed.

  Lemma NoDup3 : forall a b c : nat, NoDup [a; b; c] <-> a <> b /\ a <> c /\ b <> c.
  Proof.
    intros a b c. split.
    - intros N. inversion N as [|? ? K1 K2]; subst. inversion K2 as [|? ? K3 _]; subst. cbn in *. repeat split; intros ->; tauto.
    - intros (H1 & H2 & H3). constructor; [cbn; intuition congruence|]. constructor; [cbn; intuition congruence|].
      constructor; [intros []|constructor].
  Qed.

  Lemma third_run : forall B h f a b c (k : nat -> M B), Permutation (f_nodes h f) [a; b; c] -> NoDup [a; b; c] ->
    bind (third_node f a b) k h = k c h.
  Proof.
    intros B h f a b c k P N. apply NoDup3 in N as (N1 & N2 & N3). unfold third_node. rewrite bind_assoc, bind_gets.
    assert (E : filter (fun n => negb (n =? a) && negb (n =? b)) (f_nodes h f) = [c]).
    { apply Permutation_length_1_inv. symmetry.
      assert (Q : Permutation (filter (fun n => negb (n =? a) && negb (n =? b)) (f_nodes h f))
                              (filter (fun n => negb (n =? a) && negb (n =? b)) [a; b; c])).
      { clear - P. induction P; cbn; auto.
        - destruct (negb (x =? a) && negb (x =? b)); auto.
        - destruct (negb (x =? a) && negb (x =? b)), (negb (y =? a) && negb (y =? b)); auto. constructor.
        - etransitivity; eauto. }
      cbn in Q. rewrite !Nat.eqb_refl in Q. cbn in Q. rewrite andb_false_r in Q.
      assert (Ec : (c =? a) = false) by (apply Nat.eqb_neq; auto).
      assert (Ed : (c =? b) = false) by (apply Nat.eqb_neq; auto). rewrite Ec, Ed in Q. exact Q. }
    rewrite E. reflexivity.
  Qed.

  Lemma edge_with_run : forall B h f n e d (k : nat -> M B), Permutation (f_edges h f) [e; d] ->
    NoDup (e_nodes h e) -> In n (e_nodes h e) -> ~ In n (e_nodes h d) -> bind (edge_with f n) k h = k e h.
  Proof.
    intros B h f n e d k P N H1 H2. unfold edge_with. rewrite bind_assoc, bind_gets.
    set (g := fun e => flat_map (fun m => if m =? n then [e] else []) (e_nodes h e)).
    assert (Ee : g e = [e]).
    { unfold g. clear - N H1. induction (e_nodes h e) as [|x l IH]; [destruct H1|]. inversion N as [|? ? K1 K2]; subst.
      cbn. destruct (Nat.eqb_spec x n) as [->|D].
      - cbn. f_equal. clear - K1. induction l as [|y l IH]; auto. cbn. destruct (Nat.eqb_spec y n) as [->|D].
        + exfalso. apply K1. left; auto.
        + apply IH. intros K. apply K1. right; auto.
      - apply IH; auto. destruct H1; [congruence|auto]. }
    assert (Ed : g d = []).
    { unfold g. clear - H2. induction (e_nodes h d) as [|y l IH]; auto. cbn. destruct (Nat.eqb_spec y n) as [->|D].
      + exfalso. apply H2. left; auto.
      + apply IH. intros K. apply H2. right; auto. }
    assert (E : flat_map g (f_edges h f) = [e]).
    { apply Permutation_length_2_inv in P as [P|P] || (symmetry in P; apply Permutation_length_2_inv in P as [P|P]);
        rewrite P; cbn; rewrite Ee, Ed; auto. }
    rewrite E. reflexivity.
  Qed.

  Lemma edges_left : forall (e ea eb : nat) l, Permutation l [e; ea; eb] -> NoDup l -> Permutation (keep [e] l) [ea; eb].
  Proof.
    intros e ea eb l P N. assert (N3 : NoDup [e; ea; eb]) by (eapply Permutation_NoDup; eauto).
    apply NoDup3 in N3 as (N1 & N2 & N3). apply NoDup_Permutation.
    - apply keep_NoDup; auto.
    - constructor; [intros [K|[]]; congruence|constructor; [intros []|constructor]].
    - intros x. rewrite keep_In. split.
      + intros [K1 K2]. apply (Permutation_in _ P) in K1. cbn in *. tauto.
      + intros K. split; [apply (Permutation_in _ (Permutation_sym P)); right; auto|].
        destruct K as [<-|[<-|[]]]; intros [Q|[]]; congruence.
  Qed.

  (** Reading attributes along an account of changes. *)
  Variable h0 : heap.
  Hypothesis Co : sound h0.

  Lemma near_old : forall a h x y, Inv h0 a h -> In x (g_nodes h0) -> In y (g_nodes h0) ->
    (is_near h x y = true <-> x = y).
  Proof.
    intros a h x y I Hx Hy. destruct Co as (T & _ & _ & _ & M & _).
    destruct (i_n_old _ _ _ I x) as (_ & _ & Rx & _); [apply (t_node_alloc h0 T); auto|].
    destruct (i_n_old _ _ _ I y) as (_ & _ & Ry & _); [apply (t_node_alloc h0 T); auto|].
    unfold is_near. rewrite rc_eqb_eq, Rx, Ry. split; [|intros ->; auto]. intros E.
    clear - M Hx Hy E. induction (g_nodes h0) as [|z l IH]; [destruct Hx|].
    cbn in M. inversion M as [|? ? K1 K2]; subst. destruct Hx as [->|Hx], Hy as [->|Hy]; auto.
    - exfalso. apply K1. rewrite E. apply in_map. auto.
    - exfalso. apply K1. rewrite <- E. apply in_map. auto.
  Qed.

  Lemma find_edge_inv : forall a h e x y, Inv h0 a h -> aDE a = [] -> aNE a = [] -> In e (g_edges h0) ->
    Permutation (e_nodes h0 e) [x; y] -> find_edge h x y = Some e.
  Proof.
    intros a h e x y I N1 N2 He P. pose proof Co as (T & _).
    destruct (t_edge_nodes h0 T e He) as (_ & Nd & In_). 
    assert (Hx : In x (e_nodes h0 e)) by (apply (Permutation_in _ (Permutation_sym P)); left; auto).
    assert (Hy : In y (e_nodes h0 e)) by (apply (Permutation_in _ (Permutation_sym P)); right; left; auto).
    unfold find_edge. rewrite (i_n_edges _ _ _ I), N1, N2, keep_nil by auto. cbn [sel filter map]. rewrite app_nil_r.
    destruct (t_node_edges h0 T x (In_ _ Hx)) as [_ Ix].
    assert (Sp : forall d, In d (n_edges h0 x) -> (mem (is_near h y) (e_nodes h d) = true <-> In y (e_nodes h0 d))).
    { intros d Hd. pose proof (Ix d Hd) as Hd'. destruct (i_e_nodes _ _ _ I d) as [E _]; [apply (t_edge_alloc h0 T); auto|].
      rewrite E. unfold mem. rewrite existsb_exists. destruct (t_edge_nodes h0 T d Hd') as (_ & _ & J). split.
      - intros (m & Hm & K). apply (near_old a h y m I) in K; auto. subst. auto.
      - intros K. exists y. split; auto. apply (near_old a h y y I); auto. }
    assert (Ie : In e (n_edges h0 x)) by (apply (t_ne h0 T); auto).
    destruct (find (fun e0 => mem (is_near h y) (e_nodes h e0)) (n_edges h0 x)) as [d|] eqn:E.
    - apply find_some in E as [E1 E2]. apply Sp in E2; auto. f_equal. symmetry. apply (t_uniq h0 T); auto.
      intros n Hn. apply (Permutation_in _ P) in Hn. destruct Hn as [<-|[<-|[]]]; auto.
      apply (t_ne h0 T) in E1; auto.
    - apply (find_none _ _ E) in Ie. exfalso.
      assert (K : mem (is_near h y) (e_nodes h e) = true) by (apply Sp; auto; apply (t_ne h0 T); auto). congruence.
  Qed.

  Lemma f_edges_one : forall a h f e, Inv h0 a h -> In f (g_faces h0) -> sel (aRM a) f = [e] ->
    f_edges h f = keep [e] (f_edges h0 f).
  Proof.
    intros a h f e I Hf E. pose proof Co as (T & _).
    destruct (i_f_old _ _ _ I f) as (_ & _ & _ & _ & K); [apply (t_face_alloc h0 T); auto|]. rewrite K, E. auto.
  Qed.

  Lemma e_nodes_old : forall a h e, Inv h0 a h -> In e (g_edges h0) -> e_nodes h e = e_nodes h0 e.
  Proof. intros a h e I He. apply (i_e_nodes _ _ _ I). apply (t_edge_alloc h0 (proj1 Co)). auto. Qed.
  Lemma e_glo_old : forall a h e, Inv h0 a h -> In e (g_edges h0) -> e_glo h e = e_glo h0 e.
  Proof. intros a h e I He. apply (i_e_nodes _ _ _ I). apply (t_edge_alloc h0 (proj1 Co)). auto. Qed.
  Lemma f_glo_old : forall a h e, Inv h0 a h -> In e (g_faces h0) -> f_glo h e = f_glo h0 e.
  Proof. intros a h e I He. apply (i_f_old _ _ _ I). apply (t_face_alloc h0 (proj1 Co)). auto. Qed.
  Lemma f_nodes_old : forall a h e, Inv h0 a h -> In e (g_faces h0) -> f_nodes h e = f_nodes h0 e.
  Proof. intros a h e I He. apply (i_f_old _ _ _ I). apply (t_face_alloc h0 (proj1 Co)). auto. Qed.

  Lemma new_point_bag : forall p, new_point h0 p -> ~ In (rnd p) (g_bag h0).
  Proof.
    intros p H K. destruct Co as (_ & _ & _ & _ & _ & M & _). apply M in K. apply in_map_iff in K as (n & E & Hn).
    apply (H n Hn E).
  Qed.

  Lemma valids_EF : forall L a e f, valids h0 a L -> In (oEF e f) L ->
    old_e h0 e /\ ~ In e (aDE a) \/ new_e h0 a e.
  Proof.
    induction L as [|o L IH]; intros a e f V K; [destruct K|]. destruct V as [V1 V2]. destruct K as [->|K].
    - apply V1.
    - specialize (IH _ e f V2 K). destruct o; exact IH.
  Qed.

  (** A chain of links that makes the new edges and faces of a patch. *)
  Lemma tmpl_ops : forall t N0 E0 F0 B L (k : M B) a h, check t = true -> fits t h0 N0 E0 F0 -> Inv h0 a h ->
    aD a = F0 -> aDE a = pDE t E0 -> aEn a = nE t -> aEF (do_ops h0 a L) = pEF t h0 E0 F0 -> valids h0 a L ->
    exists h', binds L k h = k h' /\ Inv h0 (do_ops h0 a L) h'.
  Proof.
    intros t N0 E0 F0 B L k a h C Fi I E1 E2 E3 E4 V. pose proof Co as (T & _). apply ops_inv; auto.
    intros e f K. apply (valids_EF L a e f V) in K. unfold cap. rewrite E4.
    assert (D : aD (do_ops h0 a L) = F0).
    { rewrite <- E1. clear. revert a. induction L as [|o L IH]; intros a; auto. cbn. unfold do_ops in IH. rewrite IH. apply do_op_D. }
    rewrite D. apply (caps t h0 N0 E0 F0 T C Fi). rewrite <- E2. destruct K as [K|K]; [left; exact K|right].
    unfold pAE. apply in_seq. unfold new_e in K. lia.
  Qed.
End Shape.

(** A chain of links as a list. *)
Ltac chain m :=
  lazymatch m with
  | bind (link_node_edge ?n ?e) (fun _ => ?r) => let t := chain r in
      lazymatch t with (?L, ?k) => constr:((oNE n e :: L, k)) end
  | bind (link_node_face ?n ?e) (fun _ => ?r) => let t := chain r in
      lazymatch t with (?L, ?k) => constr:((oNF n e :: L, k)) end
  | bind (link_edge_face ?n ?e) (fun _ => ?r) => let t := chain r in
      lazymatch t with (?L, ?k) => constr:((oEF n e :: L, k)) end
  | bind (add_face ?n ?e) (fun _ => ?r) => let t := chain r in
      lazymatch t with (?L, ?k) => constr:((oAF n e :: L, k)) end
  | bind (add_edge ?n ?e) (fun _ => ?r) => let t := chain r in
      lazymatch t with (?L, ?k) => constr:((oAE n e :: L, k)) end
  | bind (zone_add_face ?n ?e) (fun _ => ?r) => let t := chain r in
      lazymatch t with (?L, ?k) => constr:((oZF n e :: L, k)) end
  | bind (zone_add_edge ?n ?e) (fun _ => ?r) => let t := chain r in
      lazymatch t with (?L, ?k) => constr:((oZE n e :: L, k)) end
  | bind (remove_from _ (put_f_edges ?f) (Nat.eqb ?e)) (fun _ => ?r) => let t := chain r in
      lazymatch t with (?L, ?k) => constr:((oRM f e :: L, k)) end
  | bind (need (Some ?e)) ?f => let r := eval cbv beta in (f e) in chain r
  | ?k => constr:((@nil op, k))
  end.

Lemma bind_ext : forall {F : FloatOps} A B (m : M A) (k k' : A -> M B) h, (forall x h, k x h = k' x h) ->
  bind m k h = bind m k' h.
Proof. intros F A B m k k' h H. unfold bind. destruct (m h) as [[x|e] h1]; auto. Qed.

Lemma bind_need : forall {F : FloatOps} B e (k : nat -> M B) h, bind (need (Some e)) k h = k e h.
Proof. reflexivity. Qed.

Ltac same_chain :=
  lazymatch goal with
  | |- bind (need (Some _)) _ _ = _ => rewrite bind_need; same_chain
  | |- bind _ (fun _ => _) _ = bind _ (fun _ => _) _ => apply bind_ext; intros ? ?; same_chain
  | |- _ => reflexivity
  end.

(** Replace the chain at the head of the program by [binds]. *)
Ltac to_binds :=
  lazymatch goal with
  | |- exists h', ?m ?h = _ /\ _ =>
      let t := chain m in
      lazymatch t with (?L, ?k) =>
        let E := fresh in
        assert (E : m h = binds L k h) by (cbn [binds fold_right run_op]; same_chain);
        rewrite E; clear E
      end
  end.

Ltac acc_simpl := cbn [aD aDE aRM aNE aEF aNF aPts aFD aEn aAF aAE aZF aZE aZN acc0 app map length plus
  do_ops fold_left do_op] in *; unfold flen, elen in *; cbn [aD aDE aAF aAE length plus] in *.

(** One step of the program given by a lemma with one new heap. *)
Ltac one_step lem I :=
  let h1 := fresh "hh" in let E := fresh "EE" in let I1 := fresh "II" in
  destruct lem as (h1 & E & I1); clear I; rename I1 into I;
  rewrite (bind_run _ _ _ _ _ _ _ E); clear E; acc_simpl.

(** Deletion of an edge. *)
Ltac edge_step lem I :=
  let h1 := fresh "hh" in let E := fresh "EE" in let I1 := fresh "II" in let X := fresh "XX" in
  destruct lem as (h1 & E & X & I1); clear I; rename I1 into I;
  rewrite (bind_run _ _ _ _ _ _ _ E); clear E; acc_simpl.

(** Conditions on links. *)
Ltac vside := try (match goal with |- ~ In _ (sel _ _) => rewrite sel_In end); cbn; unfold old_n, new_n, old_e, new_e, new_f; cbn;
  first [ left; assumption | left; split; [assumption|intuition congruence] | right; lia | lia | assumption | tauto | intuition congruence | intuition lia ].
Ltac vall := cbn [valids valid1 valid]; repeat (split; [repeat (split; [vside|]); vside|]); exact Logic.I.

(** The last chain of links of a transformation. *)
Ltac last_chain Co tok Fi I :=
  to_binds;
  lazymatch goal with
  | |- exists h', binds ?L ?k ?hh = _ /\ _ =>
      let h1 := fresh "hh" in let E := fresh "EE" in let I1 := fresh "II" in
      destruct (tmpl_ops _ Co _ _ _ _ _ L k _ hh tok Fi I eq_refl eq_refl eq_refl eq_refl) as (h1 & E & I1);
      [vall|clear I; rename I1 into I; rewrite E; clear E; acc_simpl]
  end.

Ltac nums := cbn -[keep Z.of_nat Nat.add]; repeat (apply (f_equal2 cons); [first [reflexivity|apply f_equal; lia]|]); reflexivity.

(** A chain of links without links of edges and faces. *)
Ltac mid_chain T I :=
  to_binds;
  lazymatch goal with
  | |- exists h', binds ?L ?k ?hh = _ /\ _ =>
      let h1 := fresh "hh" in let E := fresh "EE" in let I1 := fresh "II" in let K := fresh "K" in
      destruct (ops_inv _ T _ L k _ hh I) as (h1 & E & I1);
      [vall|intros ? ? K; exfalso; cbn in K; intuition discriminate|clear I; rename I1 into I; rewrite E; clear E; acc_simpl]
  end.

Ltac no_rm := let f := fresh in let H := fresh in let y := fresh in let K := fresh in
  intros f H; apply sel_none; intros y K; cbn in K, H; intuition congruence.

Section Border.
  Context {F : FloatOps}.

  (** Surroundings of an edge with one face. *)
  Record border_shape (h : heap) (edge face n1 n2 n3 e13 e23 z : nat) : Prop := {
    bs_nodes : In n1 (g_nodes h) /\ In n2 (g_nodes h) /\ In n3 (g_nodes h);
    bs_edges : In edge (g_edges h) /\ In e13 (g_edges h) /\ In e23 (g_edges h);
    bs_face : In face (g_faces h);
    bs_nd : NoDup [n1; n2; n3];
    bs_ed : NoDup [edge; e13; e23];
    bs_fn : Permutation (f_nodes h face) [n1; n2; n3];
    bs_fe : Permutation (f_edges h face) [edge; e13; e23];
    bs_e : e_nodes h edge = [n1; n2];
    bs_e13 : Permutation (e_nodes h e13) [n1; n3];
    bs_e23 : Permutation (e_nodes h e23) [n2; n3];
    bs_z : In z (g_zones h) /\ f_zone h face = Some z
  }.

  Lemma face_at : forall h edge face n1 n2, topo_ok h -> zones_ok h -> In edge (g_edges h) -> In face (e_faces h edge) ->
    e_nodes h edge = [n1; n2] -> exists n3 e13 e23 z, border_shape h edge face n1 n2 n3 e13 e23 z.
  Proof.
    intros h edge face n1 n2 T ZO He Hf En.
    destruct (t_edge_faces h T edge He) as (_ & _ & Ii). pose proof (Ii _ Hf) as Hg.
    assert (Ie : In edge (f_edges h face)) by (apply (t_ef h T); auto).
    destruct (face_shape h face edge n1 n2 T Hg Ie En) as (n3 & e13 & e23 & P1 & P2 & P3 & P4).
    destruct (t_face_nodes h T face Hg) as (_ & N1 & I1). destruct (t_face_edges h T face Hg) as (_ & N2 & I2).
    destruct (zo_cover h ZO face Hg) as (z & Hz & Ez).
    exists n3, e13, e23, z. constructor; auto.
    - repeat split; apply I1, (Permutation_in _ (Permutation_sym P1)); cbn; auto.
    - repeat split; apply I2, (Permutation_in _ (Permutation_sym P2)); cbn; auto.
    - eapply Permutation_NoDup; eauto.
    - eapply Permutation_NoDup; eauto.
  Qed.

  Lemma bs_e13_not2 : forall h edge face n1 n2 n3 e13 e23 z, border_shape h edge face n1 n2 n3 e13 e23 z ->
    ~ In n2 (e_nodes h e13) /\ ~ In n1 (e_nodes h e23) /\ In n1 (e_nodes h e13) /\ In n2 (e_nodes h e23).
  Proof.
    intros h edge face n1 n2 n3 e13 e23 z B. pose proof (bs_nd _ _ _ _ _ _ _ _ _ B) as N. apply NoDup3 in N as (N1 & N2 & N3).
    pose proof (bs_e13 _ _ _ _ _ _ _ _ _ B) as P. pose proof (bs_e23 _ _ _ _ _ _ _ _ _ B) as Q. repeat split.
    - intros K. apply (Permutation_in _ P) in K. cbn in K. intuition congruence.
    - intros K. apply (Permutation_in _ Q) in K. cbn in K. intuition congruence.
    - apply (Permutation_in _ (Permutation_sym P)). cbn. auto.
    - apply (Permutation_in _ (Permutation_sym Q)). cbn. auto.
  Qed.

  Lemma two_edges : forall h edge face n1 n2 n3 e13 e23 z a hh B (k : nat -> M B), sound h ->
    border_shape h edge face n1 n2 n3 e13 e23 z -> Inv h a hh -> sel (aRM a) face = [edge] ->
    bind (edge_with face n1) k hh = k e13 hh /\ bind (edge_with face n2) k hh = k e23 hh.
  Proof.
    intros h edge face n1 n2 n3 e13 e23 z a hh B k Co Bs I E.
    destruct (bs_e13_not2 _ _ _ _ _ _ _ _ _ Bs) as (K1 & K2 & K3 & K4).
    destruct (bs_edges _ _ _ _ _ _ _ _ _ Bs) as (_ & G1 & G2). pose proof Co as (T & _).
    assert (P : Permutation (f_edges hh face) [e13; e23]).
    { rewrite (f_edges_one h Co _ _ _ _ I (bs_face _ _ _ _ _ _ _ _ _ Bs) E). apply edges_left; [apply Bs|].
      apply (t_face_edges h T). apply Bs. }
    pose proof (e_nodes_old h Co _ _ _ I G1) as X1. pose proof (e_nodes_old h Co _ _ _ I G2) as X2.
    split.
    - apply (edge_with_run _ hh face n1 e13 e23); auto; rewrite ?X1, ?X2; auto. apply (t_edge_nodes h T); auto.
    - apply (edge_with_run _ hh face n2 e23 e13); rewrite ?X1, ?X2; auto.
      + etransitivity; [exact P|]. constructor.
      + apply (t_edge_nodes h T); auto.
  Qed.
End Border.
