(** Replacing a patch of a grid keeps it consistent: general part. *)

From Coq Require Import ZArith NArith Ascii String Bool Lia List Permutation.
From Verif Require Import Py PyLemmas Heap HeapLemmas GridModel GridSpec DecompProofs AtomicSpec.
Import ListNotations.
Open Scope list_scope.
Open Scope nat_scope.

(** The members of [l] that are not in [d]. *)
Definition keep (d l : list nat) : list nat := filter (fun x => negb (existsb (Nat.eqb x) d)) l.

(** The partners of [x] in a list of pairs. *)
Definition sel (L : list (nat * nat)) (x : nat) : list nat := map snd (filter (fun p => fst p =? x) L).

Definition turn (L : list (nat * nat)) : list (nat * nat) := map (fun p => (snd p, fst p)) L.

Lemma keep_In : forall d l x, In x (keep d l) <-> In x l /\ ~ In x d.
Proof.
  intros d l x. unfold keep. rewrite filter_In, negb_true_iff, <- not_true_iff_false, existsb_exists.
  split; intros [H1 H2]; split; auto.
  - intros K. apply H2. exists x. rewrite Nat.eqb_refl. auto.
  - intros (y & Hy & E). apply Nat.eqb_eq in E. subst. auto.
Qed.

Lemma keep_nil : forall l, keep [] l = l.
Proof. unfold keep. induction l as [|x l IH]; auto. cbn. f_equal. exact IH. Qed.

Lemma keep_NoDup : forall d l, NoDup l -> NoDup (keep d l).
Proof. intros d l H. apply NoDup_filter. auto. Qed.

Lemma keep_app : forall d a b, keep d (a ++ b) = keep d a ++ keep d b.
Proof. intros d a b. apply filter_app. Qed.

Lemma keep_id : forall d l, (forall x, In x l -> ~ In x d) -> keep d l = l.
Proof.
  intros d l H. unfold keep. induction l as [|x l IH]; cbn; auto.
  rewrite IH by (intros; apply H; right; auto).
  destruct (existsb (Nat.eqb x) d) eqn:E; auto. exfalso.
  apply existsb_exists in E as (y & Hy & E). apply Nat.eqb_eq in E. subst. apply (H y); auto. left; auto.
Qed.

Lemma keep_keep : forall a b l, keep a (keep b l) = keep (b ++ a) l.
Proof.
  intros a b l. unfold keep. induction l as [|x l IH]; cbn; auto.
  rewrite existsb_app. destruct (existsb (Nat.eqb x) b) eqn:E1; cbn; [exact IH|].
  destruct (existsb (Nat.eqb x) a); cbn; rewrite IH; auto.
Qed.

Lemma keep_len1 : forall x l, NoDup l -> In x l -> S (length (keep [x] l)) = length l.
Proof.
  intros x l H. induction H as [|y l Hy H IH]; intros Hx; [destruct Hx|].
  unfold keep. cbn. destruct (Nat.eqb_spec y x); cbn.
  - subst. f_equal. change (length (keep [x] l) = length l). rewrite keep_id; auto. intros z Hz [<-|[]]. auto.
  - f_equal. apply IH. destruct Hx; [congruence|auto].
Qed.

Lemma keep_perm : forall d l, NoDup d -> NoDup l -> incl d l -> Permutation l (d ++ keep d l).
Proof.
  intros d l Hd Hl Hi. apply NoDup_Permutation; auto.
  - apply NoDup_app_intro; auto.
    + apply keep_NoDup; auto.
    + intros x Hx K. apply keep_In in K as [_ K]. auto.
  - intros x. rewrite in_app_iff, keep_In. split; [|intros [H|[H _]]; auto].
    intros H. destruct (in_dec Nat.eq_dec x d); auto.
Qed.

Lemma keep_others : forall d l, others d l (keep d l).
Proof.
  intros d l. unfold others. induction l as [|x l IH]; [constructor|].
  unfold keep. cbn. destruct (existsb (Nat.eqb x) d) eqn:E; cbn.
  - apply sub_drop; auto. intros K. apply K. apply existsb_exists in E as (y & Hy & E).
    apply Nat.eqb_eq in E. subst. auto.
  - apply sub_keep; auto. intros K. apply not_true_iff_false in E. apply E. apply existsb_exists.
    exists x. rewrite Nat.eqb_refl. auto.
Qed.

Lemma sel_In : forall L x y, In y (sel L x) <-> In (x, y) L.
Proof.
  intros L x y. unfold sel. rewrite in_map_iff. split.
  - intros ([a b] & <- & H). apply filter_In in H as [H E]. cbn in E. apply Nat.eqb_eq in E. cbn. subst. auto.
  - intros H. exists (x, y). split; auto. apply filter_In. cbn. rewrite Nat.eqb_refl. auto.
Qed.

Lemma sel_NoDup : forall L x, NoDup L -> NoDup (sel L x).
Proof.
  intros L x H. unfold sel. induction H as [|[a b] L Hn H IH]; cbn; [constructor|].
  destruct (Nat.eqb_spec a x); auto. cbn. constructor; auto.
  intros K. change (In b (sel L x)) in K. apply sel_In in K. subst. auto.
Qed.

Lemma turn_In : forall L x y, In (x, y) (turn L) <-> In (y, x) L.
Proof.
  intros L x y. unfold turn. rewrite in_map_iff. split.
  - intros ([a b] & E & H). cbn in E. injection E as <- <-. auto.
  - intros H. exists (y, x). auto.
Qed.

Lemma turn_NoDup : forall L, NoDup L -> NoDup (turn L).
Proof.
  intros L H. induction H as [|[a b] L Hn H IH]; cbn; constructor; auto.
  rewrite turn_In. auto.
Qed.

Lemma NoDup_app3 : forall (a b : list nat), NoDup a -> NoDup b -> (forall x, In x a -> ~ In x b) -> NoDup (a ++ b).
Proof. intros. apply NoDup_app_intro; auto. Qed.

Section Patch.
  Context {F : FloatOps}.

  (** Raw description of the patched grid: what is deleted ([D], [DE]), made ([AN],
      [AE], [A]) and linked ([NE], [EF], [NF]). *)
  Record applied (h h' : heap) (D DE AN AE A : list nat) (NE EF NF : list (nat * nat)) : Prop := {
    ap_nodes : g_nodes h' = g_nodes h ++ AN;
    ap_edges : g_edges h' = keep DE (g_edges h) ++ AE;
    ap_faces : g_faces h' = keep D (g_faces h) ++ A;
    ap_n_edges : forall n, In n (g_nodes h) -> n_edges h' n = keep DE (n_edges h n) ++ sel NE n;
    ap_n_faces : forall n, In n (g_nodes h) -> n_faces h' n = keep D (n_faces h n) ++ sel NF n;
    ap_new_n : forall n, In n AN -> n_edges h' n = sel NE n /\ n_faces h' n = sel NF n;
    ap_e_nodes : forall e, In e (g_edges h) -> e_nodes h' e = e_nodes h e;
    ap_e_faces : forall e, In e (g_edges h) -> ~ In e DE -> e_faces h' e = keep D (e_faces h e) ++ sel EF e;
    ap_new_e : forall e, In e AE -> e_nodes h' e = sel (turn NE) e /\ e_faces h' e = sel EF e;
    ap_f_nodes : forall f, In f (g_faces h) -> f_nodes h' f = f_nodes h f;
    ap_f_edges : forall f, In f (g_faces h) -> ~ In f D -> f_edges h' f = f_edges h f;
    ap_new_f : forall f, In f A -> f_nodes h' f = sel (turn NF) f /\ f_edges h' f = sel (turn EF) f;
    ap_next : next_n h <= next_n h' /\ next_e h <= next_e h' /\ next_f h <= next_f h';
    ap_AN : forall n, In n AN -> next_n h <= n < next_n h';
    ap_AE : forall e, In e AE -> next_e h <= e < next_e h';
    ap_A : forall f, In f A -> next_f h <= f < next_f h';
    ap_nd : NoDup AN /\ NoDup AE /\ NoDup A
  }.

  (** Conditions on the patch. *)
  Record good_patch (h h' : heap) (D DE AN AE A : list nat) (NE EF NF : list (nat * nat)) : Prop := {
    gp_nd : NoDup NE /\ NoDup EF /\ NoDup NF;
    gp_ne : forall n e, In (n, e) NE -> In n (g_nodes h ++ AN) /\ In e AE;
    gp_ef : forall e f, In (e, f) EF -> (In e (g_edges h) /\ ~ In e DE \/ In e AE) /\ In f A;
    gp_nf : forall n f, In (n, f) NF -> In n (g_nodes h ++ AN) /\ In f A;
    gp_gone : forall e f, In e DE -> In e (g_edges h) -> In f (e_faces h e) -> In f D;
    gp_old_edges : forall e, In e (g_edges h) -> ~ In e DE ->
      length (sel EF e) + length (keep D (e_faces h e)) = length (e_faces h e);
    gp_new_edges : forall e, In e AE -> length (sel (turn NE) e) = 2 /\ 1 <= length (sel EF e) <= 2;
    gp_new_faces : forall f, In f A -> length (sel (turn NF) f) = 3 /\ length (sel (turn EF) f) = 3 /\
      (forall e, In e (sel (turn EF) f) -> incl (e_nodes h' e) (sel (turn NF) f)) /\
      (forall a b, In a (sel (turn NF) f) -> In b (sel (turn NF) f) -> a <> b ->
         exists e, In e (sel (turn EF) f) /\ In a (e_nodes h' e) /\ In b (e_nodes h' e));
    gp_uniq : forall e1 e2, In e1 AE -> In e2 AE -> incl (e_nodes h' e1) (e_nodes h' e2) -> e1 = e2;
    gp_uniq_old : forall e1 e2, In e1 AE -> In e2 (g_edges h) -> ~ In e2 DE ->
      incl (e_nodes h' e1) (e_nodes h e2) -> False
  }.

  Lemma incl_two : forall (a b : list nat), length a = 2 -> length b = 2 -> NoDup a -> incl a b -> incl b a.
  Proof.
    intros a b La Lb H Hi. apply NoDup_length_incl; auto. lia.
  Qed.

  Lemma patch_topo : forall h h' D DE AN AE A NE EF NF, topo_ok h ->
    applied h h' D DE AN AE A NE EF NF -> good_patch h h' D DE AN AE A NE EF NF -> topo_ok h'.
  Proof.
    intros h h' D DE AN AE A NE EF NF T P G.
    destruct (ap_next _ _ _ _ _ _ _ _ _ _ P) as (Xn & Xe & Xf).
    destruct (ap_nd _ _ _ _ _ _ _ _ _ _ P) as (NdN & NdE & NdF).
    destruct (gp_nd _ _ _ _ _ _ _ _ _ _ G) as (NdNE & NdEF & NdNF).
    assert (On : forall n, In n (g_nodes h) -> ~ In n AN).
    { intros n H K. apply (t_node_alloc h T) in H. apply (ap_AN _ _ _ _ _ _ _ _ _ _ P) in K. lia. }
    assert (Oe : forall e, In e (g_edges h) -> ~ In e AE).
    { intros n H K. apply (t_edge_alloc h T) in H. apply (ap_AE _ _ _ _ _ _ _ _ _ _ P) in K. lia. }
    assert (Of : forall f, In f (g_faces h) -> ~ In f A).
    { intros n H K. apply (t_face_alloc h T) in H. apply (ap_A _ _ _ _ _ _ _ _ _ _ P) in K. lia. }
    assert (In_n : forall n, In n (g_nodes h') <-> In n (g_nodes h) \/ In n AN).
    { intros n. rewrite (ap_nodes _ _ _ _ _ _ _ _ _ _ P), in_app_iff. tauto. }
    assert (In_e : forall e, In e (g_edges h') <-> (In e (g_edges h) /\ ~ In e DE) \/ In e AE).
    { intros n. rewrite (ap_edges _ _ _ _ _ _ _ _ _ _ P), in_app_iff, keep_In. tauto. }
    assert (In_f : forall f, In f (g_faces h') <-> (In f (g_faces h) /\ ~ In f D) \/ In f A).
    { intros n. rewrite (ap_faces _ _ _ _ _ _ _ _ _ _ P), in_app_iff, keep_In. tauto. }
    assert (Gne : forall n e, In (n, e) NE -> In n (g_nodes h') /\ In e AE).
    { intros n e H. apply (gp_ne _ _ _ _ _ _ _ _ _ _ G) in H as [H1 H2]. rewrite In_n, <- in_app_iff. auto. }
    assert (Gnf : forall n f, In (n, f) NF -> In n (g_nodes h') /\ In f A).
    { intros n e H. apply (gp_nf _ _ _ _ _ _ _ _ _ _ G) in H as [H1 H2]. rewrite In_n, <- in_app_iff. auto. }
    assert (Gef : forall e f, In (e, f) EF -> In e (g_edges h') /\ In f A).
    { intros n e H. apply (gp_ef _ _ _ _ _ _ _ _ _ _ G) in H as [H1 H2]. rewrite In_e. auto. }
    (* membership in the new incidence lists *)
    assert (Mne : forall n e, In n (g_nodes h') -> (In e (n_edges h' n) <->
      (In n (g_nodes h) /\ In e (n_edges h n) /\ ~ In e DE) \/ In (n, e) NE)).
    { intros n e Hn. apply In_n in Hn as [Hn|Hn].
      - rewrite (ap_n_edges _ _ _ _ _ _ _ _ _ _ P) by auto. rewrite in_app_iff, keep_In, sel_In. tauto.
      - destruct (ap_new_n _ _ _ _ _ _ _ _ _ _ P n Hn) as [-> _]. rewrite sel_In. split; auto.
        intros [(K & _)|K]; auto. exfalso. eapply On; eauto. }
    assert (Mnf : forall n f, In n (g_nodes h') -> (In f (n_faces h' n) <->
      (In n (g_nodes h) /\ In f (n_faces h n) /\ ~ In f D) \/ In (n, f) NF)).
    { intros n e Hn. apply In_n in Hn as [Hn|Hn].
      - rewrite (ap_n_faces _ _ _ _ _ _ _ _ _ _ P) by auto. rewrite in_app_iff, keep_In, sel_In. tauto.
      - destruct (ap_new_n _ _ _ _ _ _ _ _ _ _ P n Hn) as [_ ->]. rewrite sel_In. split; auto.
        intros [(K & _)|K]; auto. exfalso. eapply On; eauto. }
    assert (Men : forall e n, In e (g_edges h') -> (In n (e_nodes h' e) <->
      (In e (g_edges h) /\ In n (e_nodes h e)) \/ In (n, e) NE)).
    { intros e n He. apply In_e in He as [[He Hd]|He].
      - rewrite (ap_e_nodes _ _ _ _ _ _ _ _ _ _ P) by auto. split; [auto|].
        intros [[_ K]|K]; auto. exfalso. apply Gne in K as [_ K]. eapply Oe; eauto.
      - destruct (ap_new_e _ _ _ _ _ _ _ _ _ _ P e He) as [-> _]. rewrite sel_In, turn_In. split; auto.
        intros [[K _]|K]; auto. exfalso. eapply Oe; eauto. }
    assert (Mef : forall e f, In e (g_edges h') -> (In f (e_faces h' e) <->
      (In e (g_edges h) /\ In f (e_faces h e) /\ ~ In f D) \/ In (e, f) EF)).
    { intros e n He. apply In_e in He as [[He Hd]|He].
      - rewrite (ap_e_faces _ _ _ _ _ _ _ _ _ _ P) by auto. rewrite in_app_iff, keep_In, sel_In. tauto.
      - destruct (ap_new_e _ _ _ _ _ _ _ _ _ _ P e He) as [_ ->]. rewrite sel_In. split; auto.
        intros [(K & _)|K]; auto. exfalso. eapply Oe; eauto. }
    assert (Mfn : forall f n, In f (g_faces h') -> (In n (f_nodes h' f) <->
      (In f (g_faces h) /\ In n (f_nodes h f)) \/ In (n, f) NF)).
    { intros e n He. apply In_f in He as [[He Hd]|He].
      - rewrite (ap_f_nodes _ _ _ _ _ _ _ _ _ _ P) by auto. split; [auto|].
        intros [[_ K]|K]; auto. exfalso. apply Gnf in K as [_ K]. eapply Of; eauto.
      - destruct (ap_new_f _ _ _ _ _ _ _ _ _ _ P e He) as [-> _]. rewrite sel_In, turn_In. split; auto.
        intros [[K _]|K]; auto. exfalso. eapply Of; eauto. }
    assert (Mfe : forall f e, In f (g_faces h') -> (In e (f_edges h' f) <->
      (In f (g_faces h) /\ In e (f_edges h f)) \/ In (e, f) EF)).
    { intros e n He. apply In_f in He as [[He Hd]|He].
      - rewrite (ap_f_edges _ _ _ _ _ _ _ _ _ _ P) by auto. split; [auto|].
        intros [[_ K]|K]; auto. exfalso. apply Gef in K as [_ K]. eapply Of; eauto.
      - destruct (ap_new_f _ _ _ _ _ _ _ _ _ _ P e He) as [_ ->]. rewrite sel_In, turn_In. split; auto.
        intros [[K _]|K]; auto. exfalso. eapply Of; eauto. }
    (* edges of old faces survive *)
    assert (Live : forall f e, In f (g_faces h) -> ~ In f D -> In e (f_edges h f) -> In e (g_edges h) /\ ~ In e DE).
    { intros f e Hf Hd He. destruct (t_face_edges h T f Hf) as (_ & _ & Hi). specialize (Hi e He). split; auto.
      intros K. apply Hd. apply (gp_gone _ _ _ _ _ _ _ _ _ _ G e f); auto. apply (t_ef h T); auto. }
    constructor.
    - rewrite (ap_nodes _ _ _ _ _ _ _ _ _ _ P). apply NoDup_app3; auto. apply (t_nodes_nd h T).
    - rewrite (ap_edges _ _ _ _ _ _ _ _ _ _ P). apply NoDup_app3; auto.
      + apply keep_NoDup, (t_edges_nd h T).
      + intros x Hx. apply keep_In in Hx as [Hx _]. auto.
    - rewrite (ap_faces _ _ _ _ _ _ _ _ _ _ P). apply NoDup_app3; auto.
      + apply keep_NoDup, (t_faces_nd h T).
      + intros x Hx. apply keep_In in Hx as [Hx _]. auto.
    - intros n Hn. apply In_n in Hn as [Hn|Hn]; [apply (t_node_alloc h T) in Hn|apply (ap_AN _ _ _ _ _ _ _ _ _ _ P) in Hn]; lia.
    - intros n Hn. apply In_e in Hn as [[Hn _]|Hn]; [apply (t_edge_alloc h T) in Hn|apply (ap_AE _ _ _ _ _ _ _ _ _ _ P) in Hn]; lia.
    - intros n Hn. apply In_f in Hn as [[Hn _]|Hn]; [apply (t_face_alloc h T) in Hn|apply (ap_A _ _ _ _ _ _ _ _ _ _ P) in Hn]; lia.
    - (* face nodes *)
      intros f Hf. apply In_f in Hf as [[Hf Hd]|Hf].
      + rewrite (ap_f_nodes _ _ _ _ _ _ _ _ _ _ P) by auto.
        destruct (t_face_nodes h T f Hf) as (L & N & I). repeat split; auto.
        intros x Hx. apply In_n. auto.
      + destruct (ap_new_f _ _ _ _ _ _ _ _ _ _ P f Hf) as [-> _].
        destruct (gp_new_faces _ _ _ _ _ _ _ _ _ _ G f Hf) as (L & _). split; auto.
        split; [apply sel_NoDup, turn_NoDup; auto|].
        intros x Hx. apply sel_In in Hx. rewrite turn_In in Hx. apply Gnf in Hx. tauto.
    - intros f Hf. apply In_f in Hf as [[Hf Hd]|Hf].
      + rewrite (ap_f_edges _ _ _ _ _ _ _ _ _ _ P) by auto.
        destruct (t_face_edges h T f Hf) as (L & N & I). repeat split; auto.
        intros x Hx. apply In_e. left. eapply Live; eauto.
      + destruct (ap_new_f _ _ _ _ _ _ _ _ _ _ P f Hf) as [_ ->].
        destruct (gp_new_faces _ _ _ _ _ _ _ _ _ _ G f Hf) as (_ & L & _). split; auto.
        split; [apply sel_NoDup, turn_NoDup; auto|].
        intros x Hx. apply sel_In in Hx. rewrite turn_In in Hx. apply Gef in Hx. tauto.
    - (* edge nodes *)
      intros e He. apply In_e in He as [[He Hd]|He].
      + rewrite (ap_e_nodes _ _ _ _ _ _ _ _ _ _ P) by auto.
        destruct (t_edge_nodes h T e He) as (L & N & I). repeat split; auto.
        intros x Hx. apply In_n. auto.
      + destruct (ap_new_e _ _ _ _ _ _ _ _ _ _ P e He) as [-> _].
        destruct (gp_new_edges _ _ _ _ _ _ _ _ _ _ G e He) as (L & _). split; auto.
        split; [apply sel_NoDup, turn_NoDup; auto|].
        intros x Hx. apply sel_In in Hx. rewrite turn_In in Hx. apply Gne in Hx. tauto.
    - intros e He. apply In_e in He as [[He Hd]|He].
      + rewrite (ap_e_faces _ _ _ _ _ _ _ _ _ _ P) by auto.
        destruct (t_edge_faces h T e He) as (L & N & I).
        pose proof (gp_old_edges _ _ _ _ _ _ _ _ _ _ G e He Hd) as K.
        split; [rewrite app_length; lia|]. split.
        * apply NoDup_app3; [apply keep_NoDup; auto|apply sel_NoDup; auto|].
          intros x Hx Kx. apply keep_In in Hx as [Hx _]. apply sel_In in Kx. apply Gef in Kx as [_ Kx].
          apply (Of x); auto.
        * intros x Hx. apply in_app_iff in Hx. rewrite keep_In, sel_In in Hx. apply In_f.
          destruct Hx as [[Hx Hx']|Hx]; [left; auto|]. apply Gef in Hx. tauto.
      + destruct (ap_new_e _ _ _ _ _ _ _ _ _ _ P e He) as [_ ->].
        destruct (gp_new_edges _ _ _ _ _ _ _ _ _ _ G e He) as (_ & L). split; auto.
        split; [apply sel_NoDup; auto|].
        intros x Hx. apply sel_In in Hx. apply In_f. apply Gef in Hx. tauto.
    - (* node edges *)
      intros n Hn. split.
      + apply In_n in Hn as [Hn|Hn].
        * rewrite (ap_n_edges _ _ _ _ _ _ _ _ _ _ P) by auto. destruct (t_node_edges h T n Hn) as [N I].
          apply NoDup_app3; [apply keep_NoDup; auto|apply sel_NoDup; auto|].
          intros x Hx Kx. apply keep_In in Hx as [Hx _]. apply sel_In in Kx. apply Gne in Kx as [_ Kx]. apply (Oe x); auto.
        * destruct (ap_new_n _ _ _ _ _ _ _ _ _ _ P n Hn) as [-> _]. apply sel_NoDup; auto.
      + intros e He. apply Mne in He; auto. apply In_e. destruct He as [(Hn' & He & Hd)|He].
        * destruct (t_node_edges h T n Hn') as [_ I]. left; auto.
        * apply Gne in He. tauto.
    - intros n Hn. split.
      + apply In_n in Hn as [Hn|Hn].
        * rewrite (ap_n_faces _ _ _ _ _ _ _ _ _ _ P) by auto. destruct (t_node_faces h T n Hn) as [N I].
          apply NoDup_app3; [apply keep_NoDup; auto|apply sel_NoDup; auto|].
          intros x Hx Kx. apply keep_In in Hx as [Hx _]. apply sel_In in Kx. apply Gnf in Kx as [_ Kx]. apply (Of x); auto.
        * destruct (ap_new_n _ _ _ _ _ _ _ _ _ _ P n Hn) as [_ ->]. apply sel_NoDup; auto.
      + intros e He. apply Mnf in He; auto. apply In_f. destruct He as [(Hn' & He & Hd)|He].
        * destruct (t_node_faces h T n Hn') as [_ I]. left; auto.
        * apply Gnf in He. tauto.
    - (* t_ne *)
      intros n e Hn He. rewrite (Mne n e Hn), (Men e n He). split.
      + intros [(Hn' & K & Hd)|K]; auto. left.
        destruct (t_node_edges h T n Hn') as [_ I]. split; auto. apply (t_ne h T); auto.
      + intros [[He' K]|K]; auto. left.
        destruct (t_edge_nodes h T e He') as (_ & _ & I). split; [auto|]. split; [apply (t_ne h T); auto|].
        apply In_e in He as [[_ He]|He]; auto. exfalso. apply (Oe e); auto.
    - intros n f Hn Hf. rewrite (Mnf n f Hn), (Mfn f n Hf). split.
      + intros [(Hn' & K & Hd)|K]; auto. left.
        destruct (t_node_faces h T n Hn') as [_ I]. split; auto. apply (t_nf h T); auto.
      + intros [[He' K]|K]; auto. left.
        destruct (t_face_nodes h T f He') as (_ & _ & I). split; [auto|]. split; [apply (t_nf h T); auto|].
        apply In_f in Hf as [[_ He]|He]; auto. exfalso. apply (Of f); auto.
    - intros e f He Hf. rewrite (Mef e f He), (Mfe f e Hf). split.
      + intros [(Hn' & K & Hd)|K]; auto. left.
        destruct (t_edge_faces h T e Hn') as (_ & _ & I). split; auto. apply (t_ef h T); auto.
      + intros [[He' K]|K]; auto. left.
        destruct (t_face_edges h T f He') as (_ & _ & I). split; [auto|]. split; [apply (t_ef h T); auto|].
        apply In_f in Hf as [[_ Hf]|Hf]; auto. exfalso. apply (Of f); auto.
    - (* t_tri *)
      intros f e Hf He. apply In_f in Hf as [[Hf Hd]|Hf].
      + rewrite (ap_f_edges _ _ _ _ _ _ _ _ _ _ P) in He by auto.
        destruct (Live f e Hf Hd He) as [He1 _].
        rewrite (ap_e_nodes _ _ _ _ _ _ _ _ _ _ P), (ap_f_nodes _ _ _ _ _ _ _ _ _ _ P) by auto.
        apply (t_tri h T); auto.
      + destruct (ap_new_f _ _ _ _ _ _ _ _ _ _ P f Hf) as [E1 E2]. rewrite E1. rewrite E2 in He.
        destruct (gp_new_faces _ _ _ _ _ _ _ _ _ _ G f Hf) as (_ & _ & K & _). auto.
    - intros f a b Hf Ha Hb Hab. apply In_f in Hf as [[Hf Hd]|Hf].
      + rewrite (ap_f_nodes _ _ _ _ _ _ _ _ _ _ P) in Ha, Hb by auto.
        rewrite (ap_f_edges _ _ _ _ _ _ _ _ _ _ P) by auto.
        destruct (t_pairs h T f a b Hf Ha Hb Hab) as (e & He & K). exists e. split; auto.
        destruct (Live f e Hf Hd He) as [He1 _].
        rewrite (ap_e_nodes _ _ _ _ _ _ _ _ _ _ P) by auto. auto.
      + destruct (ap_new_f _ _ _ _ _ _ _ _ _ _ P f Hf) as [E1 E2]. rewrite E1 in Ha, Hb. rewrite E2.
        destruct (gp_new_faces _ _ _ _ _ _ _ _ _ _ G f Hf) as (_ & _ & _ & K). auto.
    - (* t_uniq *)
      intros e1 e2 H1 H2 Hi. apply In_e in H1 as [[H1 D1]|H1]; apply In_e in H2 as [[H2 D2]|H2].
      + rewrite !(ap_e_nodes _ _ _ _ _ _ _ _ _ _ P) in Hi by auto. apply (t_uniq h T); auto.
      + exfalso. rewrite (ap_e_nodes _ _ _ _ _ _ _ _ _ _ P e1) in Hi by auto.
        apply (gp_uniq_old _ _ _ _ _ _ _ _ _ _ G e2 e1); auto.
        destruct (t_edge_nodes h T e1 H1) as (L & N & _). apply incl_two; auto.
        destruct (ap_new_e _ _ _ _ _ _ _ _ _ _ P e2 H2) as [-> _].
        apply (gp_new_edges _ _ _ _ _ _ _ _ _ _ G e2 H2).
      + exfalso. rewrite (ap_e_nodes _ _ _ _ _ _ _ _ _ _ P e2) in Hi by auto.
        apply (gp_uniq_old _ _ _ _ _ _ _ _ _ _ G e1 e2); auto.
      + apply (gp_uniq _ _ _ _ _ _ _ _ _ _ G); auto.
  Qed.

  (** Zones: everything happens in the zone [z]. *)
  Record zone_applied (h h' : heap) (z : nat) (D DE AN AE A : list nat) : Prop := {
    za_zones : g_zones h' = g_zones h;
    za_next : next_z h' = next_z h;
    za_in : In z (g_zones h);
    za_gone : incl D (g_faces h);
    za_old : forall f, In f (g_faces h) -> f_zone h' f = f_zone h f;
    za_new : forall f, In f A -> f_zone h' f = Some z;
    za_faces : exists A', Permutation A A' /\ z_faces h' z = keep D (z_faces h z) ++ A';
    za_faces_other : forall y, In y (g_zones h) -> y <> z -> z_faces h' y = keep D (z_faces h y);
    za_nodes : z_nodes h' z = z_nodes h z ++ AN;
    za_nodes_other : forall y, In y (g_zones h) -> y <> z -> z_nodes h' y = z_nodes h y;
    za_edges : z_edges h' z = keep DE (z_edges h z) ++ AE;
    za_edges_other : forall y, In y (g_zones h) -> y <> z -> z_edges h' y = keep DE (z_edges h y)
  }.

  Lemma patch_zones : forall h h' z D DE AN AE A NE EF NF, topo_ok h -> zones_ok h ->
    applied h h' D DE AN AE A NE EF NF -> zone_applied h h' z D DE AN AE A -> zones_ok h'.
  Proof.
    intros h h' z D DE AN AE A NE EF NF T Z P Q.
    destruct (ap_nd _ _ _ _ _ _ _ _ _ _ P) as (_ & _ & NdA).
    assert (Of : forall f, In f (g_faces h) -> ~ In f A).
    { intros n H K. apply (t_face_alloc h T) in H. apply (ap_A _ _ _ _ _ _ _ _ _ _ P) in K. lia. }
    assert (In_f : forall f, In f (g_faces h') <-> (In f (g_faces h) /\ ~ In f D) \/ In f A).
    { intros n. rewrite (ap_faces _ _ _ _ _ _ _ _ _ _ P), in_app_iff, keep_In. tauto. }
    destruct (za_faces _ _ _ _ _ _ _ _ Q) as (A' & PA & EA).
    pose proof (za_in _ _ _ _ _ _ _ _ Q) as Hz.
    constructor.
    - rewrite (za_zones _ _ _ _ _ _ _ _ Q). apply (zo_nd h Z).
    - rewrite (za_zones _ _ _ _ _ _ _ _ Q), (za_next _ _ _ _ _ _ _ _ Q). apply (zo_alloc h Z).
    - rewrite (za_zones _ _ _ _ _ _ _ _ Q). intros y Hy. destruct (Nat.eq_dec y z) as [->|N].
      + rewrite EA. apply NoDup_app3; [apply keep_NoDup, (zo_faces_nd h Z); auto| |].
        * eapply Permutation_NoDup; eauto.
        * intros x Hx K. apply keep_In in Hx as [Hx _]. apply (zo_faces h Z) in Hx as [Hx _]; auto.
          apply (Of x); auto. eapply Permutation_in; [symmetry|]; eauto.
      + rewrite (za_faces_other _ _ _ _ _ _ _ _ Q) by auto. apply keep_NoDup, (zo_faces_nd h Z); auto.
    - rewrite (za_zones _ _ _ _ _ _ _ _ Q). intros y f Hy. destruct (Nat.eq_dec y z) as [->|N].
      + rewrite EA, in_app_iff, keep_In, In_f. rewrite (zo_faces h Z) by auto. split.
        * intros [[[H1 H2] H3]|H].
          -- split; auto. rewrite (za_old _ _ _ _ _ _ _ _ Q); auto.
          -- assert (In f A) by (eapply Permutation_in; [symmetry|]; eauto). split; auto.
             apply (za_new _ _ _ _ _ _ _ _ Q); auto.
        * intros [[[H1 H2]|H] H3].
          -- left. rewrite (za_old _ _ _ _ _ _ _ _ Q) in H3; auto.
          -- right. eapply Permutation_in; eauto.
      + rewrite (za_faces_other _ _ _ _ _ _ _ _ Q), keep_In, (zo_faces h Z), In_f by auto. split.
        * intros [[H1 H2] H3]. rewrite (za_old _ _ _ _ _ _ _ _ Q) by auto. split; auto.
        * intros [[[H1 H2]|H] H3].
          -- rewrite (za_old _ _ _ _ _ _ _ _ Q) in H3; auto.
          -- apply (za_new _ _ _ _ _ _ _ _ Q) in H. congruence.
    - intros f Hf. rewrite (za_zones _ _ _ _ _ _ _ _ Q). apply In_f in Hf as [[Hf _]|Hf].
      + rewrite (za_old _ _ _ _ _ _ _ _ Q) by auto. apply (zo_cover h Z); auto.
      + exists z. split; auto. apply (za_new _ _ _ _ _ _ _ _ Q); auto.
  Qed.

  Lemma patch_listed : forall h h' z D DE AN AE A NE EF NF, topo_ok h -> listed_once h ->
    applied h h' D DE AN AE A NE EF NF -> zone_applied h h' z D DE AN AE A -> listed_once h'.
  Proof.
    intros h h' z D DE AN AE A NE EF NF T L P Q y Hy. rewrite (za_zones _ _ _ _ _ _ _ _ Q) in Hy.
    destruct (L y Hy) as (L1 & L2 & L3 & L4).
    destruct (ap_nd _ _ _ _ _ _ _ _ _ _ P) as (NdN & NdE & _).
    assert (On : forall n, In n (g_nodes h) -> ~ In n AN).
    { intros n H K. apply (t_node_alloc h T) in H. apply (ap_AN _ _ _ _ _ _ _ _ _ _ P) in K. lia. }
    assert (Oe : forall e, In e (g_edges h) -> ~ In e AE).
    { intros n H K. apply (t_edge_alloc h T) in H. apply (ap_AE _ _ _ _ _ _ _ _ _ _ P) in K. lia. }
    rewrite (ap_nodes _ _ _ _ _ _ _ _ _ _ P), (ap_edges _ _ _ _ _ _ _ _ _ _ P).
    assert (K1 : incl (keep DE (z_edges h y)) (keep DE (g_edges h))).
    { intros e He. apply keep_In in He as [He Hd]. apply keep_In. auto. }
    assert (K2 : NoDup (keep DE (z_edges h y))) by (apply keep_NoDup; auto).
    destruct (Nat.eq_dec y z) as [E|N].
    - subst y. rewrite (za_nodes _ _ _ _ _ _ _ _ Q), (za_edges _ _ _ _ _ _ _ _ Q). split; [|split; [|split]].
      + apply NoDup_app3; auto. 
      + apply incl_app; [apply incl_appl; auto|apply incl_appr, incl_refl].
      + apply NoDup_app3; auto. intros e He. apply Oe. apply keep_In in He as [He _]. auto.
      + apply incl_app; [apply incl_appl; auto|apply incl_appr, incl_refl].
    - rewrite (za_nodes_other _ _ _ _ _ _ _ _ Q), (za_edges_other _ _ _ _ _ _ _ _ Q) by auto.
      split; [auto|]. split; [apply incl_appl; auto|]. split; [auto|apply incl_appl; auto].
  Qed.

  Lemma sublist_app : forall A (p : A -> Prop) a a' b b',
    sublist_of p a a' -> sublist_of p b b' -> sublist_of p (a ++ b) (a' ++ b').
  Proof. intros A p a a' b b' H K. induction H; cbn; auto; [apply sub_keep|apply sub_drop]; auto. Qed.

  Lemma sublist_all : forall A (p : A -> Prop) l, (forall x, In x l -> p x) -> sublist_of p l l.
  Proof.
    induction l as [|x l IH]; intros H; constructor; [apply H; left; auto|].
    apply IH. intros; apply H; right; auto.
  Qed.

  Lemma sublist_none : forall A (p : A -> Prop) l, (forall x, In x l -> ~ p x) -> sublist_of p l [].
  Proof.
    induction l as [|x l IH]; intros H; [constructor|]. apply sub_drop; [apply H; left; auto|].
    apply IH. intros; apply H; right; auto.
  Qed.

  (** Filtering both lists. *)
  Lemma sublist_keep : forall (p : nat -> Prop) d l l', sublist_of p l l' -> sublist_of p (keep d l) (keep d l').
  Proof.
    intros p d l l' H. unfold keep. induction H; cbn; [constructor| |].
    - destruct (negb _); auto. apply sub_keep; auto.
    - destruct (negb _); auto. apply sub_drop; auto.
  Qed.

  Lemma sublist_ext_in : forall (p q : nat -> Prop) l l', sublist_of p l l' ->
    (forall x, In x l -> (p x <-> q x)) -> sublist_of q l l'.
  Proof.
    intros p q l l' H. induction H; intros E; [constructor| |].
    - apply sub_keep; [apply E; [left; auto|auto]|]. apply IHsublist_of. intros; apply E; right; auto.
    - apply sub_drop; [intros K; apply H; apply E; [left; auto|auto]|].
      apply IHsublist_of. intros; apply E; right; auto.
  Qed.

  Lemma patch_zone_lists : forall h h' z D DE AN AE A NE EF NF, topo_ok h -> zones_ok h -> zone_lists_ok h ->
    applied h h' D DE AN AE A NE EF NF -> good_patch h h' D DE AN AE A NE EF NF ->
    zone_applied h h' z D DE AN AE A -> (forall f, In f D -> f_zone h f = Some z) ->
    (forall n, In n (g_nodes h) -> ((exists f, In f D /\ In f (n_faces h n)) <-> exists f, In (n, f) NF)) ->
    (forall n, In n AN -> exists f, In (n, f) NF) ->
    (forall e, In e (g_edges h) -> ~ In e DE ->
       ((exists f, In f D /\ In f (e_faces h e)) <-> exists f, In (e, f) EF)) ->
    zone_lists_ok h'.
  Proof.
    intros h h' z D DE AN AE A NE EF NF T Z L P G Q Same Hn Hnew He y Hy.
    rewrite (za_zones _ _ _ _ _ _ _ _ Q) in Hy. destruct (L y Hy) as [L1 L2].
    assert (Key : forall fs fs' (new : nat -> Prop), incl fs (g_faces h) ->
      (forall f, In f fs' <-> (In f fs /\ ~ In f D) \/ new f) -> (forall f, new f -> In f A) ->
      ((exists f, In f D /\ In f fs) <-> exists f, new f) ->
      (some_face_in h fs y <-> some_face_in h' fs' y)).
    { intros fs fs' new Hi Hfs HA Hx. split.
      - intros (f & Hf & Ez). destruct (in_dec Nat.eq_dec f D) as [Hd|Hd].
        + destruct (proj1 Hx) as (g & Hg); eauto. exists g. split; [apply Hfs; auto|].
          rewrite (za_new _ _ _ _ _ _ _ _ Q) by auto. apply Same in Hd. congruence.
        + exists f. split; [apply Hfs; auto|]. rewrite (za_old _ _ _ _ _ _ _ _ Q); auto.
      - intros (f & Hf & Ez). apply Hfs in Hf as [[Hf Hd]|Hf].
        + exists f. split; auto. rewrite (za_old _ _ _ _ _ _ _ _ Q) in Ez; auto.
        + rewrite (za_new _ _ _ _ _ _ _ _ Q) in Ez by auto.
          destruct (proj2 Hx) as (g & Hg & Kg); eauto. exists g. split; auto.
          apply Same in Hg. congruence. }
    assert (Nn : forall n, In n AN -> (some_face_in h' (n_faces h' n) y <-> y = z)).
    { intros n Hn'. destruct (ap_new_n _ _ _ _ _ _ _ _ _ _ P n Hn') as [_ ->]. split.
      - intros (f & Hf & Ez). apply sel_In in Hf. apply (gp_nf _ _ _ _ _ _ _ _ _ _ G) in Hf as [_ Hf].
        rewrite (za_new _ _ _ _ _ _ _ _ Q) in Ez; auto. congruence.
      - intros ->. destruct (Hnew n Hn') as (f & Hf). exists f. split; [apply sel_In; auto|].
        apply (za_new _ _ _ _ _ _ _ _ Q). apply (gp_nf _ _ _ _ _ _ _ _ _ _ G) in Hf. tauto. }
    assert (Ne : forall e, In e AE -> (some_face_in h' (e_faces h' e) y <-> y = z)).
    { intros e He'. destruct (ap_new_e _ _ _ _ _ _ _ _ _ _ P e He') as [_ ->]. split.
      - intros (f & Hf & Ez). apply sel_In in Hf. apply (gp_ef _ _ _ _ _ _ _ _ _ _ G) in Hf as [_ Hf].
        rewrite (za_new _ _ _ _ _ _ _ _ Q) in Ez; auto. congruence.
      - intros ->. destruct (gp_new_edges _ _ _ _ _ _ _ _ _ _ G e He') as [_ K].
        destruct (sel EF e) as [|f r] eqn:E; [cbn in K; lia|].
        assert (Hf : In f (sel EF e)) by (rewrite E; left; auto).
        exists f. split; [left; auto|]. apply sel_In in Hf.
        apply (za_new _ _ _ _ _ _ _ _ Q). apply (gp_ef _ _ _ _ _ _ _ _ _ _ G) in Hf. tauto. }
    split.
    - rewrite (ap_nodes _ _ _ _ _ _ _ _ _ _ P).
      assert (B : sublist_of (fun n => some_face_in h' (n_faces h' n) y) (g_nodes h) (z_nodes h y)).
      { eapply sublist_ext_in; [exact L1|]. intros n Hn'. cbv beta.
        apply (Key (n_faces h n) (n_faces h' n) (fun f => In (n, f) NF)).
        - destruct (t_node_faces h T n Hn'). auto.
        - intros f. rewrite (ap_n_faces _ _ _ _ _ _ _ _ _ _ P) by auto. rewrite in_app_iff, keep_In, sel_In. tauto.
        - intros f Hf. apply (gp_nf _ _ _ _ _ _ _ _ _ _ G) in Hf. tauto.
        - auto. }
      destruct (Nat.eq_dec y z) as [->|N].
      + rewrite (za_nodes _ _ _ _ _ _ _ _ Q). apply sublist_app; auto.
        apply sublist_all. intros n Hn'. apply Nn; auto.
      + rewrite (za_nodes_other _ _ _ _ _ _ _ _ Q) by auto.
        rewrite <- (app_nil_r (z_nodes h y)). apply sublist_app; auto.
        apply sublist_none. intros n Hn' K. apply Nn in K; auto.
    - rewrite (ap_edges _ _ _ _ _ _ _ _ _ _ P).
      assert (B : sublist_of (fun e => some_face_in h' (e_faces h' e) y) (keep DE (g_edges h)) (keep DE (z_edges h y))).
      { eapply sublist_ext_in; [apply sublist_keep; exact L2|]. intros e He'. cbv beta.
        apply keep_In in He' as [He' Hd].
        apply (Key (e_faces h e) (e_faces h' e) (fun f => In (e, f) EF)).
        - destruct (t_edge_faces h T e He') as (_ & _ & ?). auto.
        - intros f. rewrite (ap_e_faces _ _ _ _ _ _ _ _ _ _ P) by auto. rewrite in_app_iff, keep_In, sel_In. tauto.
        - intros f Hf. apply (gp_ef _ _ _ _ _ _ _ _ _ _ G) in Hf. tauto.
        - auto. }
      destruct (Nat.eq_dec y z) as [->|N].
      + rewrite (za_edges _ _ _ _ _ _ _ _ Q). apply sublist_app; auto.
        apply sublist_all. intros n Hn'. apply Ne; auto.
      + rewrite (za_edges_other _ _ _ _ _ _ _ _ Q) by auto.
        rewrite <- (app_nil_r (keep DE (z_edges h y))). apply sublist_app; auto.
        apply sublist_none. intros n Hn' K. apply Ne in K; auto.
  Qed.

  (** Numbering of one kind of objects. *)
  Lemma patch_numbers : forall (g g' : nat -> Z) l d a k, NoDup l -> NoDup d -> incl d l ->
    Permutation (map g l) (map Z.of_nat (seq 0 (length l))) ->
    (forall x, In x l -> ~ In x d -> g' x = g x) ->
    Permutation (map g' a) (map g d ++ map Z.of_nat (seq (length l) k)) ->
    length a = length d + k ->
    Permutation (map g' (keep d l ++ a)) (map Z.of_nat (seq 0 (length (keep d l ++ a)))).
  Proof.
    intros g g' l d a k Nl Nd Hi Hp Hk Ha La.
    pose proof (keep_perm d l Nd Nl Hi) as PK. pose proof (Permutation_length PK) as PL.
    rewrite app_length in PL.
    rewrite map_app. replace (map g' (keep d l)) with (map g (keep d l)).
    2:{ apply map_ext_in. intros x Hx. apply keep_In in Hx as [? ?]. symmetry. auto. }
    rewrite Ha. rewrite app_assoc.
    replace (length (keep d l ++ a)) with (length l + k) by (rewrite app_length; lia).
    rewrite seq_app, map_app. apply Permutation_app; [|apply Permutation_refl].
    rewrite <- Hp. rewrite (Permutation_map g PK), map_app. apply Permutation_app_comm.
  Qed.
End Patch.
