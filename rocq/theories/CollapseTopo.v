(** The grid after the contraction of an edge is consistent. *)

From Coq Require Import ZArith NArith Ascii String Bool Lia List Permutation.
From Verif Require Import Py PyLemmas Heap HeapLemmas GridModel GridSpec DecompProofs LoadPlace LoadMain Atomic AtomicSpec PatchDone
  PatchProofs PatchRun PatchDel AtomicRun AtomicCut CollapseSpec CollapseRun CollapseNode CollapseRun2 CollapseMain.
Import ListNotations.
Open Scope list_scope.
Open Scope nat_scope.

Lemma NoDup_map_in : forall A B (f : A -> B) l, (forall x y, In x l -> In y l -> f x = f y -> x = y) -> NoDup l -> NoDup (map f l).
Proof.
  intros A B f l H N. induction N as [|x l Hx N IH]; cbn; constructor.
  - intros K. apply in_map_iff in K as (y & E & Hy). apply Hx. rewrite (H x y); auto; [left; auto|right; auto].
  - apply IH. intros a b Ha Hb. apply H; right; auto.
Qed.

Section Subst.
  Variables n1 n2 : nat.
  Hypothesis D12 : n1 <> n2.
  Let s := instead n1 n2.

  Lemma s_n2 : s n2 = n1.
  Proof. unfold s, instead. rewrite Nat.eqb_refl. auto. Qed.
  Lemma s_other : forall x, x <> n2 -> s x = x.
  Proof. intros x H. unfold s, instead. apply Nat.eqb_neq in H. rewrite H. auto. Qed.

  Definition put_in (l : list nat) : list nat := if in_dec Nat.eq_dec n2 l then keep [n2] l ++ [n1] else l.

  Lemma put_in_perm : forall l, NoDup l -> Permutation (put_in l) (map s l).
  Proof.
    intros l N. unfold put_in. destruct (in_dec Nat.eq_dec n2 l) as [H|H].
    - destruct (in_split _ _ H) as (a & b & ->). assert (N' := N). apply NoDup_remove_2 in N'.
      assert (Ka : keep [n2] a = a /\ map s a = a).
      { split.
        - apply keep_id. intros x Hx [<-|[]]. apply N'. apply in_app_iff; auto.
        - transitivity (map (fun x => x) a); [|apply map_id]. apply map_ext_in. intros x Hx. apply s_other. intros ->. apply N'. apply in_app_iff; auto. }
      assert (Kb : keep [n2] b = b /\ map s b = b).
      { split.
        - apply keep_id. intros x Hx [<-|[]]. apply N'. apply in_app_iff; auto.
        - transitivity (map (fun x => x) b); [|apply map_id]. apply map_ext_in. intros x Hx. apply s_other. intros ->. apply N'. apply in_app_iff; auto. }
      destruct Ka as [Ka1 Ka2]. destruct Kb as [Kb1 Kb2].
      rewrite keep_app, map_app. cbn [map]. rewrite s_n2, Ka1, Ka2, Kb2.
      assert (Kc : keep [n2] (n2 :: b) = b). { unfold keep. cbn. rewrite Nat.eqb_refl. cbn. exact Kb1. }
      rewrite Kc, <- app_assoc. apply Permutation_app_head. rewrite Permutation_app_comm. auto.
    - assert (E : map s l = l).
      { transitivity (map (fun x => x) l); [|apply map_id]. apply map_ext_in. intros x Hx. apply s_other. intros ->. auto. }
      rewrite E. auto.
  Qed.

  Lemma put_in_In : forall l x, NoDup l -> (In x (put_in l) <-> In x l /\ x <> n2 \/ x = n1 /\ In n2 l).
  Proof.
    intros l x N. unfold put_in. destruct (in_dec Nat.eq_dec n2 l) as [H|H].
    - rewrite in_app_iff, keep_In. cbn. intuition.
    - split.
      + intros K. left. split; auto. intros ->. auto.
      + intros [K|K]; tauto.
  Qed.

  Lemma put_in_len : forall l, NoDup l -> length (put_in l) = length l.
  Proof. intros l N. rewrite (Permutation_length (put_in_perm l N)). apply map_length. Qed.

  Lemma put_in_nd : forall l, NoDup l -> ~ (In n1 l /\ In n2 l) -> NoDup (put_in l).
  Proof.
    intros l N H. eapply Permutation_NoDup; [symmetry; apply put_in_perm; auto|]. apply NoDup_map_in; auto.
    intros x y Hx Hy. destruct (Nat.eq_dec x n2) as [->|Dx]; destruct (Nat.eq_dec y n2) as [->|Dy]; auto.
    - rewrite s_n2, s_other by auto. intros <-. exfalso. auto.
    - rewrite s_n2, s_other by auto. intros ->. exfalso. auto.
    - rewrite !s_other by auto. auto.
  Qed.
End Subst.

Section Topo.
  Context {F : FloatOps}.
  Variables h h' : heap.
  Variables edge f1 f2 n1 n2 n3 n4 e13 e23 e14 e24 z : nat.
  Hypothesis Co : consistent h.
  Hypothesis Nd : no_double_faces h.
  Hypothesis Ps : pair_shape h edge f1 f2 n1 n2 n3 n4 e13 e23 e14 e24 z z.
  Hypothesis Ef : e_faces h edge = [f1; f2].
  Hypothesis Pt : forall n, In n (g_nodes h) -> n <> n1 -> n_rc h n <> rnd (vmid (n_p h n1) (n_p h n2)).
  Hypothesis Zo : forall g, In g (g_faces h) -> In n1 (f_nodes h g) \/ In n2 (f_nodes h g) -> f_zone h g = Some z.
  Hypothesis Third : exists g, In g (g_faces h) /\ g <> f1 /\ g <> f2 /\ In n2 (f_nodes h g).
  Hypothesis Link : forall m, joined h n1 m -> joined h n2 m -> m = n3 \/ m = n4.
  Hypothesis Tent : forall f g, In f (g_faces h) -> In g (g_faces h) ->
      Permutation (f_nodes h f) [n1; n3; n4] -> Permutation (f_nodes h g) [n2; n3; n4] -> False.
  Hypothesis Side3 : exists g, In g (g_faces h) /\ g <> f1 /\ In n3 (f_nodes h g) /\ (In n1 (f_nodes h g) \/ In n2 (f_nodes h g)).
  Hypothesis Side4 : exists g, In g (g_faces h) /\ g <> f2 /\ In n4 (f_nodes h g) /\ (In n1 (f_nodes h g) \/ In n2 (f_nodes h g)).
  Hypothesis Dn : done h edge f1 f2 n1 n2 e13 e23 e14 e24 z h'.

  Let D := [f1; f2].
  Let DE := [edge; e23; e24].
  Let G1 := keep D (e_faces h e23).
  Let G2 := keep D (e_faces h e24).
  Let T : topo_ok h := cz_topo h Co.

  Lemma both_ends' : forall g, In g (g_faces h) -> In n1 (f_nodes h g) -> In n2 (f_nodes h g) -> In g D.
  Proof.
    intros g Hg K1 K2. destruct (both_ends h edge f1 f2 n1 n2 n3 n4 e13 e23 e14 e24 z Co Ps Ef g Hg K1 K2) as [->| ->]; cbn; auto.
  Qed.

  (** *** Names of the parts. *)
  Lemma nodes_facts : n1 <> n2 /\ n1 <> n3 /\ n1 <> n4 /\ n2 <> n3 /\ n2 <> n4 /\ n3 <> n4 /\
    In n1 (g_nodes h) /\ In n2 (g_nodes h) /\ In n3 (g_nodes h) /\ In n4 (g_nodes h).
  Proof.
    destruct Ps as [B1 B2 Nn _ _]. destruct (bs_nodes _ _ _ _ _ _ _ _ _ B1) as (Q1 & Q2 & Q3).
    destruct (bs_nodes _ _ _ _ _ _ _ _ _ B2) as (_ & _ & Q4).
    repeat (apply NoDup_cons_iff in Nn as [? Nn]). cbn in *. intuition.
  Qed.
  Lemma edges_facts : ~ In e13 DE /\ ~ In e14 DE /\ e13 <> e14 /\ NoDup DE /\
    In edge (g_edges h) /\ In e13 (g_edges h) /\ In e23 (g_edges h) /\ In e14 (g_edges h) /\ In e24 (g_edges h).
  Proof.
    destruct Ps as [B1 B2 _ Ne _]. destruct (bs_edges _ _ _ _ _ _ _ _ _ B1) as (R0 & R1 & R2).
    destruct (bs_edges _ _ _ _ _ _ _ _ _ B2) as (_ & R3 & R4). unfold DE. rewrite NoDup3.
    repeat (apply NoDup_cons_iff in Ne as [? Ne]). cbn in *. intuition congruence.
  Qed.
  Lemma ends_facts : e_nodes h edge = [n1; n2] /\ Permutation (e_nodes h e13) [n1; n3] /\ Permutation (e_nodes h e23) [n2; n3] /\
    Permutation (e_nodes h e14) [n1; n4] /\ Permutation (e_nodes h e24) [n2; n4].
  Proof. destruct Ps as [B1 B2 _ _ _]. repeat split; try apply B1; apply B2. Qed.
  Lemma faces_facts : In f1 (g_faces h) /\ In f2 (g_faces h) /\ f1 <> f2 /\ f_zone h f1 = Some z /\ f_zone h f2 = Some z /\
    In z (g_zones h) /\ Permutation (f_nodes h f1) [n1; n2; n3] /\ Permutation (f_nodes h f2) [n1; n2; n4] /\
    Permutation (f_edges h f1) [edge; e13; e23] /\ Permutation (f_edges h f2) [edge; e14; e24].
  Proof.
    destruct (face_facts h edge f1 f2 n1 n2 n3 n4 e13 e23 e14 e24 z Ps) as (K1 & K2 & K3 & K4 & K5 & K6).
    destruct Ps as [B1 B2 _ _ _]. do 6 (split; [auto|]). repeat split; try apply B1; apply B2.
  Qed.

  (** An edge of the grid by its ends. *)
  Lemma edge_by_ends : forall e d a b, In e (g_edges h) -> In d (g_edges h) -> Permutation (e_nodes h d) [a; b] ->
    In a (e_nodes h e) -> In b (e_nodes h e) -> e = d.
  Proof.
    intros e d a b He Hd P Ha Hb. symmetry. apply (t_uniq h T); auto.
    intros x Hx. apply (Permutation_in _ P) in Hx. destruct Hx as [<-|[<-|[]]]; auto.
  Qed.

  Lemma only_edge : forall e, In e (g_edges h) -> ~ In e DE -> ~ (In n1 (e_nodes h e) /\ In n2 (e_nodes h e)).
  Proof.
    intros e He Hd [K1 K2]. apply Hd. left. symmetry. destruct edges_facts as (_ & _ & _ & _ & R & _).
    destruct ends_facts as (E & _). apply (edge_by_ends e edge n1 n2); auto. rewrite E. auto.
  Qed.
  Lemma only_face : forall f, In f (g_faces h) -> ~ In f D -> ~ (In n1 (f_nodes h f) /\ In n2 (f_nodes h f)).
  Proof. intros f Hf Hd [K1 K2]. apply Hd. apply both_ends'; auto. Qed.

  Lemma G1_iff : forall f, In f (g_faces h) -> (In f G1 <-> In e23 (f_edges h f) /\ ~ In f D).
  Proof.
    intros f Hf. unfold G1. rewrite keep_In. destruct edges_facts as (_ & _ & _ & _ & _ & _ & R & _). rewrite (t_ef h T) by auto. tauto.
  Qed.
  Lemma G2_iff : forall f, In f (g_faces h) -> (In f G2 <-> In e24 (f_edges h f) /\ ~ In f D).
  Proof.
    intros f Hf. unfold G2. rewrite keep_In. destruct edges_facts as (_ & _ & _ & _ & _ & _ & _ & _ & R). rewrite (t_ef h T) by auto. tauto.
  Qed.

  (** *** Surviving objects. *)
  Lemma n_in : forall n, In n (g_nodes h') <-> In n (g_nodes h) /\ n <> n2.
  Proof. intros n. rewrite (d_gn _ _ _ _ _ _ _ _ _ _ _ _ Dn), keep_In. cbn. intuition. Qed.
  Lemma e_in : forall e, In e (g_edges h') <-> In e (g_edges h) /\ ~ In e DE.
  Proof. intros e. rewrite (d_ge _ _ _ _ _ _ _ _ _ _ _ _ Dn). apply keep_In. Qed.
  Lemma f_in : forall f, In f (g_faces h') <-> In f (g_faces h) /\ ~ In f D.
  Proof. intros e. rewrite (d_gf _ _ _ _ _ _ _ _ _ _ _ _ Dn). apply keep_In. Qed.

  Lemma en_eq : forall e, In e (g_edges h') -> e_nodes h' e = put_in n1 n2 (e_nodes h e).
  Proof. intros e He. apply e_in in He as [K1 K2]. exact (d_en _ _ _ _ _ _ _ _ _ _ _ _ Dn e K1 K2). Qed.
  Lemma fn_eq : forall f, In f (g_faces h') -> f_nodes h' f = put_in n1 n2 (f_nodes h f).
  Proof. intros e He. apply f_in in He as [K1 K2]. exact (d_fn _ _ _ _ _ _ _ _ _ _ _ _ Dn e K1 K2). Qed.

  Lemma en_In : forall e x, In e (g_edges h') -> (In x (e_nodes h' e) <-> In x (e_nodes h e) /\ x <> n2 \/ x = n1 /\ In n2 (e_nodes h e)).
  Proof. intros e x He. rewrite en_eq by auto. apply put_in_In; [apply nodes_facts|]. apply e_in in He as [He _]. apply (t_edge_nodes h T e He). Qed.
  Lemma fn_In : forall f x, In f (g_faces h') -> (In x (f_nodes h' f) <-> In x (f_nodes h f) /\ x <> n2 \/ x = n1 /\ In n2 (f_nodes h f)).
  Proof. intros e x He. rewrite fn_eq by auto. apply put_in_In; [apply nodes_facts|]. apply f_in in He as [He _]. apply (t_face_nodes h T e He). Qed.

  Lemma ef_In : forall e f, In e (g_edges h') -> (In f (e_faces h' e) <->
    In f (e_faces h e) /\ ~ In f D \/ e = e13 /\ In f G1 \/ e = e14 /\ In f G2).
  Proof.
    intros e f He. apply e_in in He as [K1 K2]. rewrite (d_ef _ _ _ _ _ _ _ _ _ _ _ _ Dn e K1 K2), !in_app_iff, keep_In.
    fold D. fold G1. fold G2.
    destruct (Nat.eqb_spec e e13) as [E0|N]; destruct (Nat.eqb_spec e e14) as [E|N']; cbn; tauto.
  Qed.
  Lemma fe_In : forall f e, In f (g_faces h') -> (In e (f_edges h' f) <->
    In e (f_edges h f) /\ ~ In e DE \/ e = e13 /\ In f G1 \/ e = e14 /\ In f G2).
  Proof.
    intros f e Hf. apply f_in in Hf as [K1 K2]. rewrite (d_fe _ _ _ _ _ _ _ _ _ _ _ _ Dn f K1 K2), !in_app_iff, keep_In.
    fold D. fold G1. fold G2. fold DE.
    destruct (in_dec Nat.eq_dec f G1); destruct (in_dec Nat.eq_dec f G2); cbn; intuition.
  Qed.
  Lemma ne_In : forall n e, In n (g_nodes h') -> (In e (n_edges h' n) <-> (In e (n_edges h n) \/ n = n1 /\ In e (n_edges h n2)) /\ ~ In e DE).
  Proof.
    intros n e Hn. apply n_in in Hn as [K1 K2]. rewrite (d_ne _ _ _ _ _ _ _ _ _ _ _ _ Dn n K1), in_app_iff, keep_In. fold DE.
    destruct (Nat.eqb_spec n n1) as [->|N]; [rewrite keep_In|cbn]; tauto.
  Qed.
  Lemma nf_In : forall n f, In n (g_nodes h') -> (In f (n_faces h' n) <-> (In f (n_faces h n) \/ n = n1 /\ In f (n_faces h n2)) /\ ~ In f D).
  Proof.
    intros n e Hn. apply n_in in Hn as [K1 K2]. rewrite (d_nf _ _ _ _ _ _ _ _ _ _ _ _ Dn n K1), in_app_iff, keep_In. fold D.
    destruct (Nat.eqb_spec n n1) as [->|N]; [rewrite keep_In|cbn]; tauto.
  Qed.

  (** A face with a corner of the edge and the third corner has the side between them. *)
  Lemma side_of : forall g e a b, In g (g_faces h) -> In e (g_edges h) -> Permutation (e_nodes h e) [a; b] -> a <> b ->
    In a (f_nodes h g) -> In b (f_nodes h g) -> In e (f_edges h g).
  Proof.
    intros g e a b Hg He P Dab Ha Hb. destruct (t_pairs h T g a b Hg Ha Hb Dab) as (d & A1 & A2 & A3).
    assert (Hd : In d (g_edges h)) by (apply (t_face_edges h T g Hg); auto).
    rewrite <- (edge_by_ends d e a b); auto.
  Qed.

  Lemma side3 : exists g, In g (g_faces h) /\ ~ In g D /\ f_zone h g = Some z /\ In n3 (f_nodes h g) /\
    (In e13 (f_edges h g) \/ In e23 (f_edges h g)).
  Proof.
    destruct Side3 as (g & K1 & K2 & K3 & K4). destruct nodes_facts as (D12 & D13 & D14 & D23 & D24 & D34 & _).
    destruct edges_facts as (_ & _ & _ & _ & R0 & R1 & R2 & R3 & R4). destruct ends_facts as (_ & P13 & P23 & _ & _).
    destruct faces_facts as (_ & _ & _ & _ & _ & _ & _ & Pf2 & _).
    exists g. split; [auto|]. split.
    { intros [Q|[Q|[]]]; subst; [auto|]. apply (Permutation_in _ Pf2) in K3. cbn in K3. intuition congruence. }
    split; [auto|]. split; [auto|]. destruct K4 as [K4|K4].
    - left. apply (side_of g e13 n1 n3); auto.
    - right. apply (side_of g e23 n2 n3); auto.
  Qed.
  Lemma side4 : exists g, In g (g_faces h) /\ ~ In g D /\ f_zone h g = Some z /\ In n4 (f_nodes h g) /\
    (In e14 (f_edges h g) \/ In e24 (f_edges h g)).
  Proof.
    destruct Side4 as (g & K1 & K2 & K3 & K4). destruct nodes_facts as (D12 & D13 & D14 & D23 & D24 & D34 & _).
    destruct edges_facts as (_ & _ & _ & _ & R0 & R1 & R2 & R3 & R4). destruct ends_facts as (_ & _ & _ & P14 & P24).
    destruct faces_facts as (_ & _ & _ & _ & _ & _ & Pf1 & _).
    exists g. split; [auto|]. split.
    { intros [Q|[Q|[]]]; subst; [|auto]. apply (Permutation_in _ Pf1) in K3. cbn in K3. intuition congruence. }
    split; [auto|]. split; [auto|]. destruct K4 as [K4|K4].
    - left. apply (side_of g e14 n1 n4); auto.
    - right. apply (side_of g e24 n2 n4); auto.
  Qed.

  Lemma one_side' : forall g, In g (g_faces h) -> ~ In g D -> (In e23 (f_edges h g) \/ In e24 (f_edges h g)) ->
    ~ In e13 (f_edges h g) /\ ~ In e14 (f_edges h g).
  Proof. exact (one_side h edge f1 f2 n1 n2 n3 n4 e13 e23 e14 e24 z Co Ps Ef). Qed.

  Lemma keep_len_in : forall x l, NoDup l -> length (keep [x] l) + (if in_dec Nat.eq_dec x l then 1 else 0) = length l.
  Proof.
    intros x l N. destruct (in_dec Nat.eq_dec x l) as [K|K].
    - pose proof (keep_len1 x l N K). lia.
    - rewrite keep_id; [lia|]. intros y Hy [<-|[]]. auto.
  Qed.

  Lemma new_face_edges : forall f, In f (g_faces h') -> length (f_edges h' f) = 3 /\ NoDup (f_edges h' f) /\ incl (f_edges h' f) (g_edges h').
  Proof.
    intros f Hf'. pose proof Hf' as Hf. apply f_in in Hf as [Hf Hd]. destruct (t_face_edges h T f Hf) as (L & N & Ii).
    destruct edges_facts as (N13 & N14 & D34 & NDE & R0 & R1 & R2 & R3 & R4).
    assert (Fed : ~ In edge (f_edges h f)).
    { intros K. apply Hd. apply (t_ef h T) in K; auto. rewrite Ef in K. exact K. }
    split; [|split].
    - rewrite (d_fe _ _ _ _ _ _ _ _ _ _ _ _ Dn f Hf Hd), !app_length. fold D. fold G1. fold G2. rewrite <- keep3.
      pose proof (keep_len_in edge _ N) as L0. set (l0 := keep [edge] (f_edges h f)) in *.
      assert (N0 : NoDup l0) by (apply keep_NoDup; auto).
      pose proof (keep_len_in e23 _ N0) as L1. set (l1 := keep [e23] l0) in *.
      assert (N1 : NoDup l1) by (apply keep_NoDup; auto).
      pose proof (keep_len_in e24 _ N1) as L2.
      destruct (in_dec Nat.eq_dec edge (f_edges h f)); [contradiction|].
      assert (I1 : In e23 l0 <-> In f G1).
      { rewrite G1_iff by auto. unfold l0. rewrite keep_In. apply NoDup3 in NDE as (Q1 & Q2 & Q3). cbn [In]. tauto. }
      assert (I2 : In e24 l1 <-> In f G2).
      { rewrite G2_iff by auto. unfold l1, l0. rewrite !keep_In. apply NoDup3 in NDE as (Q1 & Q2 & Q3). cbn [In]. assert (Q3' := not_eq_sym Q3). tauto. }
      destruct (in_dec Nat.eq_dec e23 l0); destruct (in_dec Nat.eq_dec f G1); try tauto;
      destruct (in_dec Nat.eq_dec e24 l1); destruct (in_dec Nat.eq_dec f G2); try tauto; cbn [length]; lia.
    - rewrite (d_fe _ _ _ _ _ _ _ _ _ _ _ _ Dn f Hf Hd). fold D. fold G1. fold G2. fold DE.
      assert (S1 : In f G1 -> ~ In e13 (f_edges h f) /\ ~ In e14 (f_edges h f)).
      { intros K. apply G1_iff in K as [K _]; auto. apply one_side'; auto. }
      assert (S2 : In f G2 -> ~ In e13 (f_edges h f) /\ ~ In e14 (f_edges h f)).
      { intros K. apply G2_iff in K as [K _]; auto. apply one_side'; auto. }
      apply NoDup_app3; [apply keep_NoDup; auto| |].
      + destruct (in_dec Nat.eq_dec f G1); destruct (in_dec Nat.eq_dec f G2); cbn; repeat constructor; cbn; intuition.
      + intros x K. apply keep_In in K as [K _]. destruct (in_dec Nat.eq_dec f G1); destruct (in_dec Nat.eq_dec f G2); cbn; intuition congruence.
    - intros e K. apply fe_In in K; auto. apply e_in. destruct K as [[K1 K2]|[[-> _]|[-> _]]]; auto.
  Qed.

  Lemma not_side : forall e, In e (g_edges h) -> ~ In e DE -> e <> e13 -> e <> e14 -> keep D (e_faces h e) = e_faces h e.
  Proof.
    intros e He Hd K1 K2. apply keep_id. intros f Hf Hfd. destruct faces_facts as (H1 & H2 & _ & _ & _ & _ & _ & _ & Pe1 & Pe2).
    destruct Hfd as [<-|[<-|[]]]; apply (t_ef h T) in Hf; auto.
    - apply (Permutation_in _ Pe1) in Hf. unfold DE in Hd. cbn in *. intuition congruence.
    - apply (Permutation_in _ Pe2) in Hf. unfold DE in Hd. cbn in *. intuition congruence.
  Qed.

  Lemma side_len1 : forall e f, In e (g_edges h) -> In f D -> In e (f_edges h f) -> length (keep D (e_faces h e)) <= 1.
  Proof. exact (side_len h edge f1 f2 n1 n2 n3 n4 e13 e23 e14 e24 z Co Ps). Qed.

  Lemma two_lists : forall (a b : list nat), length a <= 1 -> length b <= 1 -> NoDup a -> NoDup b -> (forall x, In x a -> ~ In x b) ->
    (exists x, In x a \/ In x b) -> 1 <= length (a ++ b) <= 2 /\ NoDup (a ++ b).
  Proof.
    intros a b La Lb Na Nb H (x & Hx). rewrite app_length. split.
    - split; [|lia]. destruct a, b; cbn in *; tauto || lia.
    - apply NoDup_app3; auto.
  Qed.

  Lemma new_edge_faces : forall e, In e (g_edges h') -> 1 <= length (e_faces h' e) <= 2 /\ NoDup (e_faces h' e) /\ incl (e_faces h' e) (g_faces h').
  Proof.
    intros e He'. pose proof He' as He. apply e_in in He as [He Hd]. destruct (t_edge_faces h T e He) as (L & N & Ii).
    destruct edges_facts as (N13 & N14 & D34 & NDE & R0 & R1 & R2 & R3 & R4).
    destruct faces_facts as (H1 & H2 & _ & _ & _ & _ & _ & _ & Pe1 & Pe2).
    assert (In e23 (f_edges h f1) /\ In e13 (f_edges h f1)) as [A1 A2].
    { split; apply (Permutation_in _ (Permutation_sym Pe1)); cbn; auto. }
    assert (In e24 (f_edges h f2) /\ In e14 (f_edges h f2)) as [A3 A4].
    { split; apply (Permutation_in _ (Permutation_sym Pe2)); cbn; auto. }
    assert (Main : 1 <= length (e_faces h' e) <= 2 /\ NoDup (e_faces h' e)).
    { rewrite (d_ef _ _ _ _ _ _ _ _ _ _ _ _ Dn e He Hd). fold D. fold G1. fold G2.
      destruct (Nat.eqb_spec e e13) as [E|N1].
      - subst e. apply Nat.eqb_neq in D34 as D34'. rewrite D34', app_nil_r.
        apply two_lists.
        + exact (side_len1 e13 f1 R1 (or_introl eq_refl) A2).
        + exact (side_len1 e23 f1 R2 (or_introl eq_refl) A1).
        + apply keep_NoDup; auto.
        + apply keep_NoDup, (t_edge_faces h T e23 R2).
        + intros x K1 K2. apply keep_In in K1 as [K1 K3]. assert (Hx : In x (g_faces h)) by (apply Ii; auto).
          apply G1_iff in K2 as [K2 _]; auto. apply (proj1 (one_side' x Hx K3 (or_introl K2))). apply (t_ef h T); auto.
        + destruct side3 as (g & B1 & B2 & B3 & B4 & [B5|B5]); exists g.
          * left. apply keep_In. split; [apply (t_ef h T); auto|auto].
          * right. apply G1_iff; auto.
      - cbn [app]. destruct (Nat.eqb_spec e e14) as [E|N2].
        + subst e. apply two_lists.
          * exact (side_len1 e14 f2 R3 (or_intror (or_introl eq_refl)) A4).
          * exact (side_len1 e24 f2 R4 (or_intror (or_introl eq_refl)) A3).
          * apply keep_NoDup; auto.
          * apply keep_NoDup, (t_edge_faces h T e24 R4).
          * intros x K1 K2. apply keep_In in K1 as [K1 K3]. assert (Hx : In x (g_faces h)) by (apply Ii; auto).
            apply G2_iff in K2 as [K2 _]; auto. apply (proj2 (one_side' x Hx K3 (or_intror K2))). apply (t_ef h T); auto.
          * destruct side4 as (g & B1 & B2 & B3 & B4 & [B5|B5]); exists g.
            { left. apply keep_In. split; [apply (t_ef h T); auto|auto]. }
            { right. apply G2_iff; auto. }
        + rewrite app_nil_r, not_side by auto. split; auto. }
    destruct Main as [M1 M2]. split; [exact M1|]. split; [exact M2|].
    intros f K. apply f_in. apply ef_In in K; auto. destruct K as [[K1 K2]|[[-> K]|[-> K]]].
    - split; auto.
    - apply keep_In in K as [K K2]. split; [|auto]. apply (t_edge_faces h T e23 R2). auto.
    - apply keep_In in K as [K K2]. split; [|auto]. apply (t_edge_faces h T e24 R4). auto.
  Qed.

  Theorem new_topo : topo_ok h'.
  Proof.
    destruct nodes_facts as (D12 & D13 & D14 & D23 & D24 & D34 & Q1 & Q2 & Q3 & Q4).
    destruct edges_facts as (N13 & N14 & De & NDE & R0 & R1 & R2 & R3 & R4).
    destruct ends_facts as (En & P13 & P23 & P14 & P24).
    destruct (d_same _ _ _ _ _ _ _ _ _ _ _ _ Dn) as (_ & _ & (X1 & X2 & X3 & _) & _).
    constructor.
    - rewrite (d_gn _ _ _ _ _ _ _ _ _ _ _ _ Dn). apply keep_NoDup, (t_nodes_nd h T).
    - rewrite (d_ge _ _ _ _ _ _ _ _ _ _ _ _ Dn). apply keep_NoDup, (t_edges_nd h T).
    - rewrite (d_gf _ _ _ _ _ _ _ _ _ _ _ _ Dn). apply keep_NoDup, (t_faces_nd h T).
    - intros n K. apply n_in in K as [K _]. rewrite X1. apply (t_node_alloc h T). auto.
    - intros n K. apply e_in in K as [K _]. rewrite X2. apply (t_edge_alloc h T). auto.
    - intros n K. apply f_in in K as [K _]. rewrite X3. apply (t_face_alloc h T). auto.
    - intros f Hf'. pose proof Hf' as Hf. apply f_in in Hf as [Hf Hd]. destruct (t_face_nodes h T f Hf) as (L & N & Ii).
      rewrite fn_eq by auto. split; [rewrite put_in_len; auto|]. split; [apply put_in_nd; auto; apply only_face; auto|].
      intros x Hx. apply put_in_In in Hx; auto. apply n_in. destruct Hx as [[K1 K2]|[-> K]]; auto.
    - apply new_face_edges.
    - intros e He'. pose proof He' as He. apply e_in in He as [He Hd]. destruct (t_edge_nodes h T e He) as (L & N & Ii).
      rewrite en_eq by auto. split; [rewrite put_in_len; auto|]. split; [apply put_in_nd; auto; apply only_edge; auto|].
      intros x Hx. apply put_in_In in Hx; auto. apply n_in. destruct Hx as [[K1 K2]|[-> K]]; auto.
    - apply new_edge_faces.
    - intros n Hn'. pose proof Hn' as Hn. apply n_in in Hn as [Hn Dn2]. destruct (t_node_edges h T n Hn) as [N Ii]. split.
      + rewrite (d_ne _ _ _ _ _ _ _ _ _ _ _ _ Dn n Hn). fold DE. destruct (Nat.eqb_spec n n1) as [E|_].
        * subst n. apply NoDup_app3; try apply keep_NoDup; auto; [apply (t_node_edges h T n2 Q2)|].
          intros e K1 K2. apply keep_In in K1 as [K1 K3]. apply keep_In in K2 as [K2 _].
          apply (only_edge e (Ii _ K1) K3). split; [apply (t_ne h T); auto|].
          apply (t_ne h T); auto.
        * rewrite app_nil_r. apply keep_NoDup; auto.
      + intros e K. apply ne_In in K as [K1 K2]; auto. apply e_in. split; [|auto]. destruct K1 as [K1|[-> K1]]; auto.
        apply (t_node_edges h T n2 Q2). auto.
    - intros n Hn'. pose proof Hn' as Hn. apply n_in in Hn as [Hn Dn2]. destruct (t_node_faces h T n Hn) as [N Ii]. split.
      + rewrite (d_nf _ _ _ _ _ _ _ _ _ _ _ _ Dn n Hn). fold D. destruct (Nat.eqb_spec n n1) as [E|_].
        * subst n. apply NoDup_app3; try apply keep_NoDup; auto; [apply (t_node_faces h T n2 Q2)|].
          intros e K1 K2. apply keep_In in K1 as [K1 K3]. apply keep_In in K2 as [K2 _].
          apply (only_face e (Ii _ K1) K3). split; [apply (t_nf h T); auto|].
          apply (t_nf h T); auto.
        * rewrite app_nil_r. apply keep_NoDup; auto.
      + intros e K. apply nf_In in K as [K1 K2]; auto. apply f_in. split; [|auto]. destruct K1 as [K1|[-> K1]]; auto.
        apply (t_node_faces h T n2 Q2). auto.
    - intros n e Hn He. rewrite ne_In, en_In by auto. apply n_in in Hn as [Hn Dn2]. apply e_in in He as [He Hd].
      rewrite !(t_ne h T) by auto. tauto.
    - intros n f Hn Hf. rewrite nf_In, fn_In by auto. apply n_in in Hn as [Hn Dn2]. apply f_in in Hf as [Hf Hd].
      rewrite !(t_nf h T) by auto. tauto.
    - intros e f He Hf. rewrite ef_In, fe_In by auto. apply e_in in He as [He Hd]. apply f_in in Hf as [Hf Hd'].
      rewrite (t_ef h T) by auto. tauto.
    - intros f e Hf' He x Hx. pose proof Hf' as Hf. apply f_in in Hf as [Hf Hd].
      assert (He' : In e (g_edges h')) by (apply (new_face_edges f Hf'); auto).
      apply fe_In in He; auto. apply en_In in Hx; auto. apply fn_In; auto.
      destruct He as [[K1 K2]|[[-> K]|[-> K]]].
      + pose proof (t_tri h T f e Hf K1) as Tr. destruct Hx as [[Hx1 Hx2]|[-> Hx]]; [left; auto|right; auto].
      + apply G1_iff in K as [K _]; auto. pose proof (t_tri h T f e23 Hf K) as Tr.
        assert (In n2 (f_nodes h f) /\ In n3 (f_nodes h f)) as [Y1 Y2].
        { split; apply Tr, (Permutation_in _ (Permutation_sym P23)); cbn; auto. }
        assert (Hx' : In x (e_nodes h e13)).
        { destruct Hx as [[Hx _]|[-> Hx]]; auto. apply (Permutation_in _ (Permutation_sym P13)); cbn; auto. }
        apply (Permutation_in _ P13) in Hx'. destruct Hx' as [<-|[<-|[]]]; [right|left]; auto.
      + apply G2_iff in K as [K _]; auto. pose proof (t_tri h T f e24 Hf K) as Tr.
        assert (In n2 (f_nodes h f) /\ In n4 (f_nodes h f)) as [Y1 Y2].
        { split; apply Tr, (Permutation_in _ (Permutation_sym P24)); cbn; auto. }
        assert (Hx' : In x (e_nodes h e14)).
        { destruct Hx as [[Hx _]|[-> Hx]]; auto. apply (Permutation_in _ (Permutation_sym P14)); cbn; auto. }
        apply (Permutation_in _ P14) in Hx'. destruct Hx' as [<-|[<-|[]]]; [right|left]; auto.
    - intros f a b Hf' Ha Hb Dab. pose proof Hf' as Hf. apply f_in in Hf as [Hf Hd]. apply fn_In in Ha; auto. apply fn_In in Hb; auto.
      assert (Xa : exists a', In a' (f_nodes h f) /\ instead n1 n2 a' = a).
      { destruct Ha as [[K1 K2]|[-> K]]; [exists a|exists n2]; split; auto; [apply s_other; auto|apply s_n2]. }
      assert (Xb : exists b', In b' (f_nodes h f) /\ instead n1 n2 b' = b).
      { destruct Hb as [[K1 K2]|[-> K]]; [exists b|exists n2]; split; auto; [apply s_other; auto|apply s_n2]. }
      destruct Xa as (a' & Ia & Ea). destruct Xb as (b' & Ib & Eb).
      assert (Dab' : a' <> b') by congruence.
      destruct (t_pairs h T f a' b' Hf Ia Ib Dab') as (e & A1 & A2 & A3).
      assert (He : In e (g_edges h)) by (apply (t_face_edges h T f Hf); auto).
      assert (Fed : e <> edge).
      { intros ->. apply Hd. apply (t_ef h T) in A1; auto. rewrite Ef in A1. exact A1. }
      assert (Img : forall x y, In x (e_nodes h y) -> In y (g_edges h) -> ~ In y DE -> In (instead n1 n2 x) (e_nodes h' y)).
      { intros x y Kx Ky Kd. apply en_In; [apply e_in; auto|]. destruct (Nat.eq_dec x n2) as [->|Dx].
        - right. split; [apply s_n2|auto].
        - left. rewrite s_other by auto. auto. }
      destruct (Nat.eq_dec e e23) as [->|D23'].
      + exists e13. assert (Fg : In f G1) by (apply G1_iff; auto). split; [apply fe_In; auto|].
        assert (Y : forall x, In x (e_nodes h e23) -> In (instead n1 n2 x) (e_nodes h' e13)).
        { intros x Kx. apply en_In; [apply e_in; auto|]. left. apply (Permutation_in _ P23) in Kx.
          destruct Kx as [<-|[<-|[]]]; [rewrite s_n2|rewrite s_other by auto]; (split; [apply (Permutation_in _ (Permutation_sym P13)); cbn; auto|auto]). }
        rewrite <- Ea, <- Eb. split; apply Y; auto.
      + destruct (Nat.eq_dec e e24) as [->|D24'].
        * exists e14. assert (Fg : In f G2) by (apply G2_iff; auto). split; [apply fe_In; auto|].
          assert (Y : forall x, In x (e_nodes h e24) -> In (instead n1 n2 x) (e_nodes h' e14)).
          { intros x Kx. apply en_In; [apply e_in; auto|]. left. apply (Permutation_in _ P24) in Kx.
            destruct Kx as [<-|[<-|[]]]; [rewrite s_n2|rewrite s_other by auto]; (split; [apply (Permutation_in _ (Permutation_sym P14)); cbn; auto|auto]). }
          rewrite <- Ea, <- Eb. split; apply Y; auto.
        * assert (Hde : ~ In e DE) by (unfold DE; cbn; intuition congruence).
          exists e. split; [apply fe_In; auto|]. rewrite <- Ea, <- Eb. split; apply Img; auto.
    - intros a b Ha' Hb' Hi. pose proof Ha' as Ha. apply e_in in Ha as [Ha Da]. pose proof Hb' as Hb. apply e_in in Hb as [Hb Db].
      destruct (t_edge_nodes h T a Ha) as (La & Na & _). destruct (t_edge_nodes h T b Hb) as (Lb & Nb & _).
      assert (Mixed : forall c d x, In c (g_edges h) -> In d (g_edges h) -> ~ In d DE -> In n1 (e_nodes h c) -> In n2 (e_nodes h d) ->
        In x (e_nodes h c) -> In x (e_nodes h d) -> x <> n1 -> x <> n2 -> False).
      { intros c d x Hc Hd' Ndd K1 K2 K3 K4 X Y. destruct (t_edge_nodes h T c Hc) as (Lc & Nc & _). destruct (t_edge_nodes h T d Hd') as (Ld & Nd' & _).
        assert (Pc : Permutation (e_nodes h c) [n1; x]) by (apply perm2; auto).
        assert (Pd : Permutation (e_nodes h d) [n2; x]) by (apply perm2; auto).
        apply Ndd. destruct (Link x) as [->| ->].
        - exists c. auto.
        - exists d. auto.
        - right. left. symmetry. apply (edge_by_ends d e23 n2 n3); auto.
        - right. right. left. symmetry. apply (edge_by_ends d e24 n2 n4); auto. }
      destruct (in_dec Nat.eq_dec n2 (e_nodes h a)) as [Ka|Ka]; destruct (in_dec Nat.eq_dec n2 (e_nodes h b)) as [Kb|Kb].
      + apply (t_uniq h T); auto. intros x Hx. destruct (Nat.eq_dec x n2) as [->|Dx]; auto.
        assert (Y : In x (e_nodes h' b)) by (apply Hi, en_In; auto). apply en_In in Y; auto. destruct Y as [[Y _]|[-> _]]; auto.
        exfalso. apply (only_edge a Ha Da). auto.
      + exfalso. assert (Y : In n1 (e_nodes h' b)) by (apply Hi, en_In; auto). apply en_In in Y; auto.
        destruct Y as [[Y _]|[_ Y]]; [|contradiction].
        assert (Xx : exists x, In x (e_nodes h a) /\ x <> n2).
        { destruct (e_nodes h a) as [|u [|v [|? ?]]]; try discriminate La. inversion Na as [|? ? K _]; subst. cbn in K.
          destruct (Nat.eq_dec u n2) as [->|]; [exists v|exists u]; cbn; intuition. }
        destruct Xx as (x & Hx & Dx). assert (Y2 : In x (e_nodes h' b)) by (apply Hi, en_In; auto). apply en_In in Y2; auto.
        destruct Y2 as [[Y2 _]|[_ Y2]]; [|contradiction].
        apply (Mixed b a x); auto. intros ->. apply (only_edge a Ha Da). auto.
      + exfalso.
        assert (Inc : incl (e_nodes h' b) (e_nodes h' a)).
        { rewrite !en_eq in * by auto. apply incl_two; auto.
          - rewrite put_in_len; auto.
          - rewrite put_in_len; auto.
          - apply put_in_nd; auto. apply only_edge; auto. }
        assert (Y : In n1 (e_nodes h' a)) by (apply Inc, en_In; auto). apply en_In in Y; auto.
        destruct Y as [[Y _]|[_ Y]]; [|contradiction].
        assert (Xx : exists x, In x (e_nodes h b) /\ x <> n2).
        { destruct (e_nodes h b) as [|u [|v [|? ?]]]; try discriminate Lb. inversion Nb as [|? ? K _]; subst. cbn in K.
          destruct (Nat.eq_dec u n2) as [->|]; [exists v|exists u]; cbn; intuition. }
        destruct Xx as (x & Hx & Dx). assert (Y2 : In x (e_nodes h' a)) by (apply Inc, en_In; auto). apply en_In in Y2; auto.
        destruct Y2 as [[Y2 _]|[_ Y2]]; [|contradiction].
        apply (Mixed a b x); auto. intros ->. apply (only_edge b Hb Db). auto.
      + apply (t_uniq h T); auto. intros x Hx. assert (Dx : x <> n2) by (intros ->; auto).
        assert (Y : In x (e_nodes h' b)) by (apply Hi, en_In; auto). apply en_In in Y; auto. destruct Y as [[Y _]|[_ Y]]; auto. contradiction.
  Qed.

  Theorem new_zones : zones_ok h'.
  Proof.
    pose proof (cz_zones h Co) as ZO. destruct (d_same _ _ _ _ _ _ _ _ _ _ _ _ Dn) as ((_ & _ & X) & _ & (_ & _ & _ & X4) & _ & Xz & _).
    constructor.
    - rewrite Xz. apply (zo_nd h ZO).
    - rewrite Xz, X4. apply (zo_alloc h ZO).
    - intros y Hy. rewrite Xz in Hy. rewrite (d_zf _ _ _ _ _ _ _ _ _ _ _ _ Dn y Hy). apply keep_NoDup, (zo_faces_nd h ZO); auto.
    - intros y f Hy. rewrite Xz in Hy. rewrite (d_zf _ _ _ _ _ _ _ _ _ _ _ _ Dn y Hy), keep_In, f_in, X, (zo_faces h ZO) by auto. fold D. tauto.
    - intros f Hf. apply f_in in Hf as [Hf _]. rewrite Xz, X. apply (zo_cover h ZO); auto.
  Qed.

  (** A face of the zone at every place that is left by a deleted face. *)
  Lemma zone_left_n : forall n, In n (g_nodes h') -> some_face_in h (n_faces h n) z -> exists g, In g (n_faces h' n) /\ f_zone h g = Some z.
  Proof.
    intros n Hn' (f & K1 & K2). pose proof Hn' as Hn. apply n_in in Hn as [Hn D2].
    destruct nodes_facts as (D12 & D13 & D14 & D23 & D24 & D34 & Q1 & Q2 & Q3 & Q4).
    destruct faces_facts as (H1 & H2 & _ & _ & _ & _ & P1 & P2 & _).
    destruct (in_dec Nat.eq_dec f D) as [Kd|Kd]; [|exists f; split; [apply nf_In; auto|auto]].
    assert (C1 : exists g, In g (n_faces h' n1) /\ f_zone h g = Some z).
    { destruct Third as (g & A1 & A2 & A3 & A4). exists g. split; [|auto]. apply nf_In; [apply n_in; auto|].
      split; [|intros [B|[B|[]]]; auto]. right. split; auto. apply (t_nf h T); auto. }
    assert (C3 : exists g, In g (n_faces h' n3) /\ f_zone h g = Some z).
    { destruct side3 as (g & A1 & A2 & A3 & A4 & _). exists g. split; [|auto]. apply nf_In; [apply n_in; auto|]. split; [|auto].
      left. apply (t_nf h T); auto. }
    assert (C4 : exists g, In g (n_faces h' n4) /\ f_zone h g = Some z).
    { destruct side4 as (g & A1 & A2 & A3 & A4 & _). exists g. split; [|auto]. apply nf_In; [apply n_in; auto|]. split; [|auto].
      left. apply (t_nf h T); auto. }
    destruct Kd as [E|[E|[]]]; subst f; apply (t_nf h T) in K1; auto.
    - apply (Permutation_in _ P1) in K1. destruct K1 as [E|[E|[E|[]]]]; [subst n; auto|congruence|subst n; auto].
    - apply (Permutation_in _ P2) in K1. destruct K1 as [E|[E|[E|[]]]]; [subst n; auto|congruence|subst n; auto].
  Qed.

  Lemma zone_left_e : forall e, In e (g_edges h') -> some_face_in h (e_faces h e) z -> exists g, In g (e_faces h' e) /\ f_zone h g = Some z.
  Proof.
    intros e He' (f & K1 & K2). pose proof He' as He. apply e_in in He as [He Hd].
    destruct edges_facts as (N13 & N14 & De & NDE & R0 & R1 & R2 & R3 & R4).
    destruct faces_facts as (H1 & H2 & _ & _ & _ & _ & _ & _ & P1 & P2).
    destruct (in_dec Nat.eq_dec f D) as [Kd|Kd]; [|exists f; split; [apply ef_In; auto|auto]].
    assert (C3 : exists g, In g (e_faces h' e13) /\ f_zone h g = Some z).
    { destruct side3 as (g & A1 & A2 & A3 & A4 & [A5|A5]); exists g; (split; [|auto]); apply ef_In; try (apply e_in; auto).
      - left. split; [apply (t_ef h T); auto|auto].
      - right. left. split; auto. apply G1_iff; auto. }
    assert (C4 : exists g, In g (e_faces h' e14) /\ f_zone h g = Some z).
    { destruct side4 as (g & A1 & A2 & A3 & A4 & [A5|A5]); exists g; (split; [|auto]); apply ef_In; try (apply e_in; auto).
      - left. split; [apply (t_ef h T); auto|auto].
      - right. right. split; auto. apply G2_iff; auto. }
    unfold DE in Hd. cbn [In] in Hd.
    destruct Kd as [E|[E|[]]]; subst f; apply (t_ef h T) in K1; auto.
    - apply (Permutation_in _ P1) in K1. cbn [In] in K1. destruct K1 as [E|[E|[E|[]]]]; [tauto|subst e; auto|tauto].
    - apply (Permutation_in _ P2) in K1. cbn [In] in K1. destruct K1 as [E|[E|[E|[]]]]; [tauto|subst e; auto|tauto].
  Qed.

  Lemma zone_n_iff : forall n y, In n (g_nodes h') -> (some_face_in h (n_faces h n) y <-> some_face_in h' (n_faces h' n) y).
  Proof.
    intros n y Hn'. pose proof Hn' as Hn. apply n_in in Hn as [Hn D2].
    destruct nodes_facts as (D12 & D13 & D14 & D23 & D24 & D34 & Q1 & Q2 & Q3 & Q4).
    destruct faces_facts as (H1 & H2 & _ & Z1 & Z2 & _ & P1 & P2 & _).
    destruct (d_same _ _ _ _ _ _ _ _ _ _ _ _ Dn) as ((_ & _ & X) & _).
    split.
    - intros K. pose proof K as (f & K1 & K2). destruct (in_dec Nat.eq_dec f D) as [Kd|Kd].
      + assert (E : y = z) by (destruct Kd as [E|[E|[]]]; subst f; congruence). subst y.
        destruct (zone_left_n n Hn' K) as (g & A1 & A2). exists g. rewrite X. auto.
      + exists f. rewrite X. split; [apply nf_In; auto|auto].
    - intros (f & K1 & K2). rewrite X in K2. apply nf_In in K1 as [K1 Kd]; auto. destruct K1 as [K1|[E K1]]; [exists f; auto|].
      subst n. exists f1. assert (Hf : In f (g_faces h)) by (apply (t_node_faces h T n2 Q2); auto).
      apply (t_nf h T) in K1; auto. rewrite (Zo f Hf (or_intror K1)) in K2. split; [|congruence].
      apply (t_nf h T); auto. apply (Permutation_in _ (Permutation_sym P1)). left; auto.
  Qed.

  Lemma zone_e_iff : forall e y, In e (g_edges h') -> (some_face_in h (e_faces h e) y <-> some_face_in h' (e_faces h' e) y).
  Proof.
    intros e y He'. pose proof He' as He. apply e_in in He as [He Hd].
    destruct nodes_facts as (D12 & D13 & D14 & D23 & D24 & D34 & Q1 & Q2 & Q3 & Q4).
    destruct edges_facts as (N13 & N14 & De & NDE & R0 & R1 & R2 & R3 & R4). destruct ends_facts as (_ & _ & P23 & _ & P24).
    destruct faces_facts as (H1 & H2 & _ & Z1 & Z2 & _ & _ & _ & P1 & P2).
    destruct (d_same _ _ _ _ _ _ _ _ _ _ _ _ Dn) as ((_ & _ & X) & _).
    split.
    - intros K. pose proof K as (f & K1 & K2). destruct (in_dec Nat.eq_dec f D) as [Kd|Kd].
      + assert (E : y = z) by (destruct Kd as [E|[E|[]]]; subst f; congruence). subst y.
        destruct (zone_left_e e He' K) as (g & A1 & A2). exists g. rewrite X. auto.
      + exists f. rewrite X. split; [apply ef_In; auto|auto].
    - intros (f & K1 & K2). rewrite X in K2. apply ef_In in K1; auto. destruct K1 as [[K1 _]|[[E K1]|[E K1]]]; [exists f; auto| |].
      + subst e. exists f1. pose proof K1 as K1'. apply keep_In in K1' as [Hf _]. apply (t_edge_faces h T e23 R2) in Hf.
        apply G1_iff in K1 as [K1 _]; auto. apply (t_tri h T f e23 Hf) in K1.
        assert (Y : In n2 (f_nodes h f)) by (apply K1, (Permutation_in _ (Permutation_sym P23)); left; auto).
        rewrite (Zo f Hf (or_intror Y)) in K2. split; [|congruence].
        apply (t_ef h T); auto. apply (Permutation_in _ (Permutation_sym P1)). right; left; auto.
      + subst e. exists f2. pose proof K1 as K1'. apply keep_In in K1' as [Hf _]. apply (t_edge_faces h T e24 R4) in Hf.
        apply G2_iff in K1 as [K1 _]; auto. apply (t_tri h T f e24 Hf) in K1.
        assert (Y : In n2 (f_nodes h f)) by (apply K1, (Permutation_in _ (Permutation_sym P24)); left; auto).
        rewrite (Zo f Hf (or_intror Y)) in K2. split; [|congruence].
        apply (t_ef h T); auto. apply (Permutation_in _ (Permutation_sym P2)). right; left; auto.
  Qed.

  Theorem new_lists : zone_lists_ok h'.
  Proof.
    assert (ZL : zone_lists_ok h) by apply Co.
    destruct (d_same _ _ _ _ _ _ _ _ _ _ _ _ Dn) as (_ & _ & _ & _ & Xz & _).
    destruct nodes_facts as (D12 & D13 & D14 & D23 & D24 & D34 & Q1 & Q2 & Q3 & Q4).
    intros y Hy. rewrite Xz in Hy. destruct (ZL y Hy) as [L1 L2]. split.
    - assert (E : z_nodes h' y = keep [n2] (z_nodes h y)).
      { rewrite (d_zn _ _ _ _ _ _ _ _ _ _ _ _ Dn y Hy). destruct (Nat.eqb_spec y z) as [E|E]; auto. symmetry. apply keep_id.
        intros x Hx [Ex|[]]. subst x. apply (DecompProofs.sublist_In _ _ _ _ _ L1) in Hx as [_ (f & K1 & K2)]. apply E.
        assert (Hf : In f (g_faces h)) by (apply (t_node_faces h T n2 Q2); auto).
        apply (t_nf h T) in K1; auto. rewrite (Zo f Hf (or_intror K1)) in K2. congruence. }
      rewrite E, (d_gn _ _ _ _ _ _ _ _ _ _ _ _ Dn). eapply sublist_ext_in; [apply sublist_keep; exact L1|].
      intros x Hx. apply zone_n_iff. rewrite (d_gn _ _ _ _ _ _ _ _ _ _ _ _ Dn). auto.
    - rewrite (d_ze _ _ _ _ _ _ _ _ _ _ _ _ Dn y Hy), (d_ge _ _ _ _ _ _ _ _ _ _ _ _ Dn).
      eapply sublist_ext_in; [apply sublist_keep; exact L2|].
      intros x Hx. apply zone_e_iff. rewrite (d_ge _ _ _ _ _ _ _ _ _ _ _ _ Dn). auto.
  Qed.

  Theorem new_merged : nodes_merged h'.
  Proof.
    assert (M : nodes_merged h) by apply Co. destruct M as (M1 & M2 & M3).
    destruct nodes_facts as (D12 & D13 & D14 & D23 & D24 & D34 & Q1 & Q2 & Q3 & Q4).
    destruct (d_bag _ _ _ _ _ _ _ _ _ _ _ _ Dn) as [_ Bg].
    assert (Inj : forall a b, In a (g_nodes h) -> In b (g_nodes h) -> n_rc h a = n_rc h b -> a = b).
    { intros a b Ha Hb E. exact (LoadMain.NoDup_map_inj _ _ (n_rc h) _ a b M1 Ha Hb E). }
    assert (Rc : forall n, n <> n1 -> n_rc h' n = n_rc h n).
    { intros n N. rewrite (d_rc _ _ _ _ _ _ _ _ _ _ _ _ Dn). apply upd_other; auto. }
    assert (Rc1 : n_rc h' n1 = rnd (vmid (n_p h n1) (n_p h n2))).
    { rewrite (d_rc _ _ _ _ _ _ _ _ _ _ _ _ Dn). apply upd_same. }
    split; [|split].
    - apply NoDup_map_in; [|apply (t_nodes_nd h' new_topo)].
      intros a b Ha Hb. apply n_in in Ha as [Ha Da]. apply n_in in Hb as [Hb Db].
      destruct (Nat.eq_dec a n1) as [Ea|Ea]; destruct (Nat.eq_dec b n1) as [Eb|Eb]; try congruence.
      + rewrite (Rc b) by auto. subst a. rewrite Rc1. intros E. exfalso. apply (Pt b Hb Eb). auto.
      + rewrite (Rc a) by auto. subst b. rewrite Rc1. intros E. exfalso. apply (Pt a Ha Ea). auto.
      + rewrite !Rc by auto. apply Inj; auto.
    - intros r. rewrite Bg, M2, !in_map_iff. split.
      + intros [[[(n & E & Hn) K]|K] K2].
        * subst r. assert (n <> n1) by congruence. assert (n <> n2) by congruence. exists n. rewrite Rc by auto. split; auto. apply n_in; auto.
        * exists n1. rewrite Rc1. split; [auto|]. apply n_in; auto.
      + intros (n & E & Hn). apply n_in in Hn as [Hn Dn2]. destruct (Nat.eq_dec n n1) as [En|En].
        * subst n. rewrite Rc1 in E. subst r. split; [auto|]. intros E. apply (Pt n2 Q2); auto.
        * rewrite Rc in E by auto. subst r. split; [left; split; [exists n; auto|]|]; intros E; apply Inj in E; auto.
    - intros n Hn. apply n_in in Hn as [Hn Dn2]. rewrite (d_rc _ _ _ _ _ _ _ _ _ _ _ _ Dn), (d_p _ _ _ _ _ _ _ _ _ _ _ _ Dn).
      destruct (Nat.eq_dec n n1) as [En|En]; [subst n; rewrite !upd_same; auto|rewrite !upd_other by auto; auto].
  Qed.

  Theorem new_single : no_double_faces h'.
  Proof.
    destruct nodes_facts as (D12 & D13 & D14 & D23 & D24 & D34 & Q1 & Q2 & Q3 & Q4).
    intros a b Ha' Hb' Hi. pose proof Ha' as Ha. apply f_in in Ha as [Ha Da]. pose proof Hb' as Hb. apply f_in in Hb as [Hb Db].
    destruct (t_face_nodes h T a Ha) as (La & Na & _). destruct (t_face_nodes h T b Hb) as (Lb & Nb & _).
    (* two nodes of one face are joined *)
    assert (Jo : forall f x y, In f (g_faces h) -> In x (f_nodes h f) -> In y (f_nodes h f) -> x <> y -> joined h x y).
    { intros f x y Hf Hx Hy Dxy. destruct (t_pairs h T f x y Hf Hx Hy Dxy) as (e & A1 & A2 & A3).
      assert (He : In e (g_edges h)) by (apply (t_face_edges h T f Hf); auto). exists e. split; auto.
      destruct (t_edge_nodes h T e He) as (Le & Ne & _). apply perm2; auto. }
    assert (Mixed : forall c d, In c (g_faces h) -> In d (g_faces h) -> ~ In c D -> ~ In d D ->
      In n1 (f_nodes h c) -> In n2 (f_nodes h d) -> (forall x, In x (f_nodes h d) -> x <> n2 -> In x (f_nodes h c)) -> False).
    { intros c d Hc Hd Dc Dd K1 K2 Sub. destruct (t_face_nodes h T c Hc) as (Lc & Nc & _). destruct (t_face_nodes h T d Hd) as (Ld & Nd' & _).
      assert (Nn1 : ~ In n1 (f_nodes h d)) by (intros K; apply (only_face d Hd Dd); auto).
      assert (Nn2 : ~ In n2 (f_nodes h c)) by (intros K; apply (only_face c Hc Dc); auto).
      assert (Only : forall x, In x (f_nodes h d) -> x = n2 \/ x = n3 \/ x = n4).
      { intros x Hx. destruct (Nat.eq_dec x n2) as [E|E]; [auto|]. right.
        assert (x <> n1) by (intros ->; auto). apply Link; [apply (Jo c)|apply (Jo d)]; auto. }
      assert (Pd : Permutation (f_nodes h d) [n2; n3; n4]).
      { apply NoDup_Permutation_bis; auto; [cbn; lia|]. intros x Hx. destruct (Only x Hx) as [E|[E|E]]; subst x; cbn; auto. }
      assert (In n3 (f_nodes h d) /\ In n4 (f_nodes h d)) as [A3 A4].
      { split; apply (Permutation_in _ (Permutation_sym Pd)); cbn; auto. }
      apply (Tent c d Hc Hd); auto. apply perm3; auto. }
    assert (Sub : forall x, In x (f_nodes h a) -> x <> n2 -> In x (f_nodes h b) \/ x = n1 /\ In n2 (f_nodes h b)).
    { intros x Hx Dx. assert (Y : In x (f_nodes h' b)) by (apply Hi, fn_In; auto). apply fn_In in Y; auto. tauto. }
    destruct (in_dec Nat.eq_dec n2 (f_nodes h a)) as [Ka|Ka]; destruct (in_dec Nat.eq_dec n2 (f_nodes h b)) as [Kb|Kb].
    - apply Nd; auto. intros x Hx. destruct (Nat.eq_dec x n2) as [->|Dx]; auto. destruct (Sub x Hx Dx) as [Y|[E _]]; auto.
      exfalso. subst x. apply (only_face a Ha Da); auto.
    - exfalso. apply (Mixed b a); auto.
      + assert (Y : In n1 (f_nodes h' b)) by (apply Hi, fn_In; auto). apply fn_In in Y; auto. tauto.
      + intros x Hx Dx. destruct (Sub x Hx Dx) as [Y|[_ Y]]; auto. contradiction.
    - exfalso.
      assert (Inc : incl (f_nodes h' b) (f_nodes h' a)).
      { assert (N' : NoDup (f_nodes h' a)) by (apply (t_face_nodes h' new_topo); auto).
        apply NoDup_length_incl; auto. rewrite !fn_eq, !put_in_len by auto. lia. }
      assert (Sub' : forall x, In x (f_nodes h b) -> x <> n2 -> In x (f_nodes h a)).
      { intros x Hx Dx. assert (Y : In x (f_nodes h' a)) by (apply Inc, fn_In; auto). apply fn_In in Y; auto. tauto. }
      apply (Mixed a b); auto. assert (Y : In n1 (f_nodes h' a)) by (apply Inc, fn_In; auto). apply fn_In in Y; auto. tauto.
    - apply Nd; auto. intros x Hx. assert (Dx : x <> n2) by (intros ->; auto). destruct (Sub x Hx Dx) as [Y|[_ Y]]; auto. contradiction.
  Qed.

  Theorem new_contracted : contracted h h' edge e23 e24 f1 f2 n1 n2.
  Proof.
    destruct nodes_facts as (D12 & _).
    destruct (d_same _ _ _ _ _ _ _ _ _ _ _ _ Dn) as ((X1 & X2 & X3) & (X4 & X5 & X6) & _ & X7 & X8 & X9).
    constructor.
    - rewrite (d_gn _ _ _ _ _ _ _ _ _ _ _ _ Dn). apply keep_others.
    - rewrite (d_ge _ _ _ _ _ _ _ _ _ _ _ _ Dn). apply keep_others.
    - rewrite (d_gf _ _ _ _ _ _ _ _ _ _ _ _ Dn). apply keep_others.
    - rewrite (d_p _ _ _ _ _ _ _ _ _ _ _ _ Dn). apply upd_same.
    - intros n _ N. rewrite (d_p _ _ _ _ _ _ _ _ _ _ _ _ Dn). apply upd_other; auto.
    - intros n. rewrite X1. auto.
    - intros e He. rewrite en_eq by auto. apply put_in_perm. apply e_in in He as [He _]. apply (t_edge_nodes h T e He).
    - intros f Hf. rewrite fn_eq by auto. apply put_in_perm. apply f_in in Hf as [Hf _]. apply (t_face_nodes h T f Hf).
    - intros f. rewrite X2, X3. auto.
    - auto.
    - auto.
  Qed.
End Topo.

(** Numbers. *)
Lemma app_same_len : forall A (a b c d : list A), a ++ b = c ++ d -> length b = length d -> a = c /\ b = d.
Proof.
  intros A a. induction a as [|x a IH]; intros b [|y c] d E L; cbn in E.
  - auto.
  - exfalso. apply (f_equal (@length A)) in E. cbn in E. rewrite app_length in E. lia.
  - exfalso. apply (f_equal (@length A)) in E. cbn in E. rewrite app_length in E. lia.
  - injection E as -> E. destruct (IH _ _ _ E L) as [-> ->]. auto.
Qed.

Lemma NoDup_app_right : forall (a b : list nat), NoDup (a ++ b) -> NoDup b.
Proof. induction a as [|x a IH]; intros b H; auto. apply IH. cbn in H. inversion H; auto. Qed.

Lemma num_iff : forall (num num' : nat -> Z) all d l0 t k,
  Permutation all (d ++ l0 ++ t) -> Permutation (map num all) (map Z.of_nat (seq 0 (length all))) ->
  length d = k -> length t = k -> Permutation (map num' (l0 ++ t)) (map num l0 ++ map num d) ->
  (Permutation (map num' (l0 ++ t)) (map Z.of_nat (seq 0 (length (l0 ++ t)))) <-> greatest_last num (l0 ++ t) k (length all)).
Proof.
  intros num num' all d l0 t k P Q Ld Lt R.
  assert (L : length all = length (l0 ++ t) + k). { rewrite (Permutation_length P), (app_length d). lia. }
  assert (S1 : seq 0 (length all) = seq 0 (length (l0 ++ t)) ++ seq (length (l0 ++ t)) k).
  { rewrite L, seq_app. auto. }
  assert (Z1 : Permutation ((map num l0 ++ map num d) ++ map num t)
    (map Z.of_nat (seq 0 (length (l0 ++ t))) ++ map Z.of_nat (seq (length (l0 ++ t)) k))).
  { rewrite <- (map_app Z.of_nat), <- S1, <- Q, P, !map_app. rewrite (Permutation_app_comm (map num l0) (map num d)), <- app_assoc. auto. }
  assert (E : length all - k = length (l0 ++ t)) by lia.
  split.
  - intros K. exists l0, t. split; [auto|]. split; [auto|]. rewrite E. rewrite <- R, K in Z1.
    apply Permutation_app_inv_l in Z1. auto.
  - intros (a & b & Eab & Lb & K). apply app_same_len in Eab as [<- <-]; [|lia]. rewrite E in K. rewrite R. rewrite <- K in Z1.
    apply Permutation_app_inv_r in Z1. auto.
Qed.

Section Final.
  Context {F : FloatOps}.

  Lemma upd_map : forall A (f : nat -> A) x v l, ~ In x l -> map (upd f x v) l = map f l.
  Proof. intros A f x v l H. apply map_ext_in. intros y Hy. apply upd_other. intros ->. auto. Qed.

  Theorem collapse_main : forall h edge f1 f2 n1 n2 n3 n4,
    consistent h -> no_double_faces h -> NoDup (g_bag h) -> In edge (g_edges h) ->
    e_faces h edge = [f1; f2] -> e_nodes h edge = [n1; n2] ->
    In n3 (f_nodes h f1) -> n3 <> n1 -> n3 <> n2 -> In n4 (f_nodes h f2) -> n4 <> n1 -> n4 <> n2 ->
    contractible h f1 f2 n1 n2 n3 n4 ->
    exists h' e1 e2, In e1 (g_edges h) /\ Permutation (e_nodes h e1) [n2; n3] /\
      In e2 (g_edges h) /\ Permutation (e_nodes h e2) [n2; n4] /\
      collapse_edge edge h = (Ok true, h') /\ contracted h h' edge e1 e2 f1 f2 n1 n2 /\
      topo_ok h' /\ zones_ok h' /\ zone_lists_ok h' /\ nodes_merged h' /\ no_double_faces h' /\
      counts h' h 1 3 2 /\
      (numbered h' <-> greatest_last (n_glo h) (g_nodes h') 1 (length (g_nodes h)) /\
        greatest_last (e_glo h) (g_edges h') 3 (length (g_edges h)) /\
        greatest_last (f_glo h) (g_faces h') 2 (length (g_faces h))).
  Proof.
    intros h edge f1 f2 n1 n2 n3 n4 Co Nd Bn He Ef En A1 A2 A3 A4 A5 A6 [Link Tent S3 S4 Third Zone Pt Many].
    pose proof (cz_topo h Co) as T. pose proof (cz_zones h Co) as ZO.
    destruct (t_edge_faces h T edge He) as (_ & Nf & If). rewrite Ef in Nf, If.
    assert (H1 : In f1 (g_faces h)) by (apply If; left; auto). assert (H2 : In f2 (g_faces h)) by (apply If; right; left; auto).
    assert (Tri : forall f, In f [f1; f2] -> In n1 (f_nodes h f) /\ In n2 (f_nodes h f)).
    { intros f Hf. assert (K : In edge (f_edges h f)) by (apply (t_ef h T); auto; rewrite Ef; auto).
      assert (I' := t_tri h T f edge (If f Hf) K). rewrite En in I'. split; apply I'; cbn; auto. }
    assert (Fz : f_zone h f1 = f_zone h f2). { symmetry. apply Zone; auto. left. apply Tri. cbn; auto. }
    destruct (pair_at h edge f1 f2 n1 n2 T ZO He) as (m3 & m4 & e13 & e23 & e14 & e24 & z & Ps); auto.
    { rewrite Ef. auto. }
    assert (m3 = n3 /\ m4 = n4) as [-> ->].
    { destruct Ps as [B1 B2 _ _ _]. pose proof (bs_fn _ _ _ _ _ _ _ _ _ B1) as P1. pose proof (bs_fn _ _ _ _ _ _ _ _ _ B2) as P2.
      apply (Permutation_in _ P1) in A1. apply (Permutation_in _ P2) in A4. cbn in A1, A4. intuition congruence. }
    assert (Z1 : f_zone h f1 = Some z) by (destruct Ps as [B1 _ _ _ _]; apply B1).
    assert (Zo : forall g, In g (g_faces h) -> In n1 (f_nodes h g) \/ In n2 (f_nodes h g) -> f_zone h g = Some z).
    { intros g Hg K. rewrite (Zone g Hg K). auto. }
    destruct (collapse_run h edge f1 f2 n1 n2 n3 n4 e13 e23 e14 e24 z Co Ps Ef Bn Pt Zo Third Many)
      as (h' & lf & a & b & le & c & d & e & ln & n & Run & Dn & Elf & Ele & Eln & Gf & Ge & Gn).
    exists h', e23, e24.
    destruct (nodes_facts h edge f1 f2 n1 n2 n3 n4 e13 e23 e14 e24 z Ps) as (_ & _ & _ & _ & _ & _ & _ & Q2 & _).
    destruct (edges_facts h edge f1 f2 n1 n2 n3 n4 e13 e23 e14 e24 z Ps) as (_ & _ & _ & NDE & R0 & _ & R2 & _ & R4).
    destruct (ends_facts h edge f1 f2 n1 n2 n3 n4 e13 e23 e14 e24 z Ps) as (_ & _ & P23 & _ & P24).
    assert (NT : topo_ok h') by (eapply new_topo; eauto).
    assert (PN : Permutation (g_nodes h) ([n2] ++ g_nodes h')).
    { rewrite (d_gn _ _ _ _ _ _ _ _ _ _ _ _ Dn). apply keep_perm; [repeat constructor; auto|apply T|]. intros x [<-|[]]; auto. }
    assert (PE : Permutation (g_edges h) ([edge; e23; e24] ++ g_edges h')).
    { rewrite (d_ge _ _ _ _ _ _ _ _ _ _ _ _ Dn). apply keep_perm; [auto|apply T|]. intros x [<-|[<-|[<-|[]]]]; auto. }
    assert (PF : Permutation (g_faces h) ([f1; f2] ++ g_faces h')).
    { rewrite (d_gf _ _ _ _ _ _ _ _ _ _ _ _ Dn). apply keep_perm; [auto|apply T|]. intros x [<-|[<-|[]]]; auto. }
    assert (Nm : numbered h) by apply Co. destruct Nm as (M1 & M2 & M3).
    rewrite <- (d_gn _ _ _ _ _ _ _ _ _ _ _ _ Dn) in Eln. rewrite <- (d_ge _ _ _ _ _ _ _ _ _ _ _ _ Dn) in Ele.
    rewrite <- (d_gf _ _ _ _ _ _ _ _ _ _ _ _ Dn) in Elf.
    unfold counts. repeat match goal with |- _ /\ _ => split end; auto.
    - eapply new_contracted; eauto.
    - eapply new_zones; eauto.
    - eapply new_lists; eauto.
    - eapply new_merged; eauto.
    - eapply new_single; eauto.
    - apply Permutation_length in PN. rewrite app_length in PN. cbn in PN. lia.
    - apply Permutation_length in PE. rewrite app_length in PE. cbn in PE. lia.
    - apply Permutation_length in PF. rewrite app_length in PF. cbn in PF. lia.
    - assert (In1 : Permutation (map (n_glo h') (g_nodes h')) (map Z.of_nat (seq 0 (length (g_nodes h')))) <->
        greatest_last (n_glo h) (g_nodes h') 1 (length (g_nodes h))).
      { pose proof (t_nodes_nd h' NT) as N. rewrite Eln in *. apply num_iff with (d := [n2]); auto.
        rewrite Gn, map_app. cbn. rewrite upd_same, upd_map; auto. intros K. apply NoDup_remove_2 in N. apply N. rewrite app_nil_r. auto. }
      assert (In2 : Permutation (map (e_glo h') (g_edges h')) (map Z.of_nat (seq 0 (length (g_edges h')))) <->
        greatest_last (e_glo h) (g_edges h') 3 (length (g_edges h))).
      { pose proof (t_edges_nd h' NT) as N. rewrite Ele in *. apply num_iff with (d := [edge; e23; e24]); auto.
        assert (Nt : NoDup [c; d; e]) by (exact (NoDup_app_right _ _ N)). apply NoDup3 in Nt as (X1 & X2 & X3).
        assert (Nl : forall x, In x [c; d; e] -> ~ In x le).
        { intros x Hx K. destruct (in_split _ _ K) as (u & v & ->). rewrite <- app_assoc in N. cbn in N. apply NoDup_remove_2 in N.
          apply N. rewrite !in_app_iff. auto. }
        rewrite Ge, map_app. cbn [map]. rewrite !upd_map by (apply Nl; cbn; auto).
        rewrite upd_same, (upd_other _ _ c), upd_same, (upd_other _ _ c), (upd_other _ _ d), upd_same by auto.
        apply Permutation_app_head. cbn. apply (Permutation_rev [_; _; _]). }
      assert (In3 : Permutation (map (f_glo h') (g_faces h')) (map Z.of_nat (seq 0 (length (g_faces h')))) <->
        greatest_last (f_glo h) (g_faces h') 2 (length (g_faces h))).
      { pose proof (t_faces_nd h' NT) as N. rewrite Elf in *. apply num_iff with (d := [f1; f2]); auto.
        assert (Nl : forall x, In x [a; b] -> ~ In x lf).
        { intros x Hx K. destruct (in_split _ _ K) as (u & v & ->). rewrite <- app_assoc in N. cbn in N. apply NoDup_remove_2 in N.
          apply N. rewrite !in_app_iff. auto. }
        assert (a <> b). { apply NoDup_remove_2 in N. intros ->. apply N. apply in_app_iff. right; left; auto. }
        rewrite Gf, map_app. cbn [map]. rewrite !upd_map by (apply Nl; cbn; auto).
        rewrite upd_same, (upd_other _ _ a), upd_same by auto.
        apply Permutation_app_head. apply (Permutation_rev [_; _]). }
      unfold numbered. tauto.
  Qed.
End Final.
