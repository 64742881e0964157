(** Patches described by small numbers: the conditions on a patch are checked by
    computation once for every kind of transformation. *)

From Coq Require Import ZArith NArith Ascii String Bool Lia List Permutation.
From Verif Require Import Py PyLemmas Heap HeapLemmas GridModel GridSpec DecompProofs AtomicSpec PatchProofs PatchRun PatchDel.
Import ListNotations.
Open Scope list_scope.
Open Scope nat_scope.

(** Numbers of old and new nodes, of gone, old (gone included) and new edges, of gone and
    new faces; edges and nodes of the gone faces, nodes of the old edges; new links; order
    of the new faces in the grid. *)
Record tmpl : Type := mkTmpl {
  kN : nat; nN : nat; kG : nat; kE : nat; nE : nat; kF : nat; nF : nat;
  tGE : list (nat * nat); tGN : list (nat * nat); tEN : list (nat * nat);
  tNE : list (nat * nat); tEF : list (nat * nat); tNF : list (nat * nat);
  tA : list nat
}.

Definition memb (x : nat) (l : list nat) : bool := existsb (Nat.eqb x) l.
Definition inclb (a b : list nat) : bool := forallb (fun x => memb x b) a.
Fixpoint nodupb (l : list nat) : bool :=
  match l with [] => true | x :: r => negb (memb x r) && nodupb r end.
Definition pair_eqb (p q : nat * nat) : bool := (fst p =? fst q) && (snd p =? snd q).
Fixpoint nodupb2 (l : list (nat * nat)) : bool :=
  match l with [] => true | x :: r => negb (existsb (pair_eqb x) r) && nodupb2 r end.
(** First members in [a, b), second members in [c, d). *)
Definition rangeb (a b c d : nat) (l : list (nat * nat)) : bool :=
  forallb (fun p => (a <=? fst p) && (fst p <? b) && (c <=? snd p) && (snd p <? d)) l.

Definition enodes (t : tmpl) (j : nat) : list nat := if j <? kE t then sel (tEN t) j else sel (turn (tNE t)) j.

Definition check (t : tmpl) : bool :=
  (kG t <=? kE t) &&
  rangeb 0 (kN t + nN t) (kE t) (kE t + nE t) (tNE t) &&
  rangeb (kG t) (kE t + nE t) (kF t) (kF t + nF t) (tEF t) &&
  rangeb 0 (kN t + nN t) (kF t) (kF t + nF t) (tNF t) &&
  rangeb 0 (kF t) 0 (kE t) (tGE t) && rangeb 0 (kF t) 0 (kN t) (tGN t) && rangeb 0 (kE t) 0 (kN t) (tEN t) &&
  nodupb2 (tNE t) && nodupb2 (tEF t) && nodupb2 (tNF t) && nodupb2 (tGE t) &&
  forallb (fun j => length (sel (tEF t) j) =? length (sel (turn (tGE t)) j)) (seq (kG t) (kE t - kG t)) &&
  forallb (fun j => (length (sel (turn (tNE t)) j) =? 2) && (1 <=? length (sel (tEF t) j)) &&
                    (length (sel (tEF t) j) <=? 2)) (seq (kE t) (nE t)) &&
  forallb (fun i => (length (sel (turn (tNF t)) i) =? 3) && (length (sel (turn (tEF t)) i) =? 3) &&
    forallb (fun j => inclb (enodes t j) (sel (turn (tNF t)) i)) (sel (turn (tEF t)) i) &&
    forallb (fun a => forallb (fun b => (a =? b) ||
      existsb (fun j => memb a (enodes t j) && memb b (enodes t j)) (sel (turn (tEF t)) i))
      (sel (turn (tNF t)) i)) (sel (turn (tNF t)) i)) (seq (kF t) (nF t)) &&
  forallb (fun i => forallb (fun j => (i =? j) || negb (inclb (enodes t i) (enodes t j))) (seq (kE t) (nE t)))
    (seq (kE t) (nE t)) &&
  forallb (fun n => eqb (memb n (map snd (tGN t))) (memb n (map fst (tNF t)))) (seq 0 (kN t)) &&
  forallb (fun n => memb n (map fst (tNF t))) (seq (kN t) (nN t)) &&
  nodupb (tA t) && inclb (tA t) (seq (kF t) (nF t)) && inclb (seq (kF t) (nF t)) (tA t).

Lemma memb_In : forall x l, memb x l = true <-> In x l.
Proof.
  intros x l. unfold memb. rewrite existsb_exists. split.
  - intros (y & Hy & E). apply Nat.eqb_eq in E. subst; auto.
  - intros H. exists x. rewrite Nat.eqb_refl. auto.
Qed.

Lemma inclb_incl : forall a b, inclb a b = true <-> incl a b.
Proof.
  intros a b. unfold inclb. rewrite forallb_forall. split; intros H x Hx.
  - apply memb_In. auto.
  - apply memb_In. auto.
Qed.

Lemma nodupb_ok : forall l, nodupb l = true -> NoDup l.
Proof.
  induction l as [|x l IH]; cbn; intros H; constructor; apply andb_true_iff in H as [H1 H2]; auto.
  intros K. apply memb_In in K. rewrite K in H1. discriminate.
Qed.

Lemma nodupb2_ok : forall l, nodupb2 l = true -> NoDup l.
Proof.
  induction l as [|x l IH]; cbn; intros H; constructor; apply andb_true_iff in H as [H1 H2]; auto.
  intros K. apply negb_true_iff in H1. apply not_true_iff_false in H1. apply H1.
  apply existsb_exists. exists x. split; auto. unfold pair_eqb. rewrite !Nat.eqb_refl. auto.
Qed.

Lemma rangeb_ok : forall a b c d l, rangeb a b c d l = true -> forall x y, In (x, y) l -> a <= x < b /\ c <= y < d.
Proof.
  intros a b c d l H x y Hx. unfold rangeb in H. rewrite forallb_forall in H. specialize (H _ Hx). cbn in H.
  rewrite !andb_true_iff in H. destruct H as [[[H1 H2] H3] H4].
  apply Nat.leb_le in H1. apply Nat.ltb_lt in H2. apply Nat.leb_le in H3. apply Nat.ltb_lt in H4. lia.
Qed.

(** Renaming of pairs. *)
Definition ren (f g : nat -> nat) (L : list (nat * nat)) : list (nat * nat) := map (fun p => (f (fst p), g (snd p))) L.

Lemma ren_turn : forall f g L, turn (ren f g L) = ren g f (turn L).
Proof. intros. unfold turn, ren. rewrite !map_map. apply map_ext. auto. Qed.

Lemma ren_In : forall f g L x y, In (x, y) (ren f g L) <-> exists i j, In (i, j) L /\ x = f i /\ y = g j.
Proof.
  intros. unfold ren. rewrite in_map_iff. split.
  - intros ([i j] & E & H). injection E as <- <-. exists i, j. auto.
  - intros (i & j & H & -> & ->). exists (i, j). auto.
Qed.

Lemma ren_sel : forall f g L b i, (forall x y, In (x, y) L -> x < b) -> i < b ->
  (forall x y, x < b -> y < b -> f x = f y -> x = y) ->
  sel (ren f g L) (f i) = map g (sel L i).
Proof.
  intros f g L b i H Hi Hinj. induction L as [|[x y] L IH]; auto.
  unfold sel, ren in *. cbn [map filter fst snd]. specialize (IH (fun x y K => H x y (or_intror K))).
  destruct (Nat.eqb_spec x i) as [->|N].
  - rewrite Nat.eqb_refl. cbn. f_equal. exact IH.
  - destruct (Nat.eqb_spec (f x) (f i)) as [E|_]; [|exact IH].
    apply Hinj in E; auto; [contradiction|]. apply (H x y). left; auto.
Qed.

Lemma ren_NoDup : forall f g L a b, (forall x y, In (x, y) L -> x < a /\ y < b) ->
  (forall x y, x < a -> y < a -> f x = f y -> x = y) ->
  (forall x y, x < b -> y < b -> g x = g y -> x = y) -> NoDup L -> NoDup (ren f g L).
Proof.
  intros f g L a b H Hf Hg N. induction N as [|[x y] L Hx N IH]; cbn; constructor.
  - intros K. apply ren_In in K as (i & j & K & E1 & E2).
    destruct (H x y) as [? ?]; [left; auto|]. destruct (H i j) as [? ?]; [right; auto|].
    apply Hf in E1; auto. apply Hg in E2; auto. subst. contradiction.
  - apply IH. intros i j K. apply H. right; auto.
Qed.

Section Tmpl.
  Context {F : FloatOps}.
  Variable t : tmpl.
  Variable h : heap.
  Variables N0 E0 F0 : list nat.
  Hypothesis T : topo_ok h.

  Definition tabN := N0 ++ seq (next_n h) (nN t).
  Definition tabE := E0 ++ seq (next_e h) (nE t).
  Definition tabF := F0 ++ seq (next_f h) (nF t).
  Definition nn i := nth i tabN 0.
  Definition ee i := nth i tabE 0.
  Definition ff i := nth i tabF 0.

  (** The grid has the old part of the patch. *)
  Record fits : Prop := {
    fi_len : length N0 = kN t /\ length E0 = kE t /\ length F0 = kF t;
    fi_nd : NoDup N0 /\ NoDup E0 /\ NoDup F0;
    fi_in : incl N0 (g_nodes h) /\ incl E0 (g_edges h) /\ incl F0 (g_faces h);
    fi_fn : forall i, i < kF t -> Permutation (f_nodes h (ff i)) (map nn (sel (tGN t) i));
    fi_fe : forall i, i < kF t -> Permutation (f_edges h (ff i)) (map ee (sel (tGE t) i));
    fi_en : forall j, j < kE t -> Permutation (e_nodes h (ee j)) (map nn (sel (tEN t) j));
    fi_gone : forall j, j < kG t -> incl (e_faces h (ee j)) F0
  }.

  Hypothesis C : check t = true.
  Hypothesis Fi : fits.

  Lemma tab_nd : NoDup tabN /\ NoDup tabE /\ NoDup tabF.
  Proof.
    destruct (fi_nd Fi) as (A1 & A2 & A3). destruct (fi_in Fi) as (B1 & B2 & B3).
    repeat split; apply NoDup_app3; auto; try apply seq_NoDup; intros x Hx K; apply in_seq in K.
    - apply B1, (t_node_alloc h T) in Hx. lia.
    - apply B2, (t_edge_alloc h T) in Hx. lia.
    - apply B3, (t_face_alloc h T) in Hx. lia.
  Qed.

  Lemma tab_len : length tabN = kN t + nN t /\ length tabE = kE t + nE t /\ length tabF = kF t + nF t.
  Proof.
    destruct (fi_len Fi) as (A1 & A2 & A3). unfold tabN, tabE, tabF. rewrite !app_length, !seq_length. lia.
  Qed.

  Lemma nn_inj : forall x y, x < kN t + nN t -> y < kN t + nN t -> nn x = nn y -> x = y.
  Proof.
    destruct tab_nd as (A & _). destruct tab_len as (B & _). intros x y Hx Hy E.
    apply (proj1 (NoDup_nth tabN 0) A); auto; lia.
  Qed.
  Lemma ee_inj : forall x y, x < kE t + nE t -> y < kE t + nE t -> ee x = ee y -> x = y.
  Proof.
    destruct tab_nd as (_ & A & _). destruct tab_len as (_ & B & _). intros x y Hx Hy E.
    apply (proj1 (NoDup_nth tabE 0) A); auto; lia.
  Qed.
  Lemma ff_inj : forall x y, x < kF t + nF t -> y < kF t + nF t -> ff x = ff y -> x = y.
  Proof.
    destruct tab_nd as (_ & _ & A). destruct tab_len as (_ & _ & B). intros x y Hx Hy E.
    apply (proj1 (NoDup_nth tabF 0) A); auto; lia.
  Qed.

  Lemma nn_old : forall i, i < kN t -> In (nn i) N0.
  Proof.
    intros i Hi. destruct (fi_len Fi) as (A & _). unfold nn, tabN. rewrite app_nth1 by lia. apply nth_In. lia.
  Qed.
  Lemma ee_old : forall i, i < kE t -> In (ee i) E0.
  Proof.
    intros i Hi. destruct (fi_len Fi) as (_ & A & _). unfold ee, tabE. rewrite app_nth1 by lia. apply nth_In. lia.
  Qed.
  Lemma ff_old : forall i, i < kF t -> In (ff i) F0.
  Proof.
    intros i Hi. destruct (fi_len Fi) as (_ & _ & A). unfold ff, tabF. rewrite app_nth1 by lia. apply nth_In. lia.
  Qed.
  Lemma nn_new : forall i, kN t <= i < kN t + nN t -> nn i = next_n h + (i - kN t).
  Proof.
    intros i Hi. destruct (fi_len Fi) as (A & _). unfold nn, tabN. rewrite app_nth2 by lia. rewrite seq_nth; lia.
  Qed.
  Lemma ee_new : forall i, kE t <= i < kE t + nE t -> ee i = next_e h + (i - kE t).
  Proof.
    intros i Hi. destruct (fi_len Fi) as (_ & A & _). unfold ee, tabE. rewrite app_nth2 by lia. rewrite seq_nth; lia.
  Qed.
  Lemma ff_new : forall i, kF t <= i < kF t + nF t -> ff i = next_f h + (i - kF t).
  Proof.
    intros i Hi. destruct (fi_len Fi) as (_ & _ & A). unfold ff, tabF. rewrite app_nth2 by lia. rewrite seq_nth; lia.
  Qed.

  (** The patch in terms of the objects of the grid. *)
  Definition pNE := ren nn ee (tNE t).
  Definition pEF := ren ee ff (tEF t).
  Definition pNF := ren nn ff (tNF t).
  Definition pDE := firstn (kG t) E0.
  Definition pAN := seq (next_n h) (nN t).
  Definition pAE := seq (next_e h) (nE t).
  Definition pA := map ff (tA t).

  (** The parts of the check. *)
  Lemma checks :
    kG t <= kE t /\
    (forall x y, In (x, y) (tNE t) -> 0 <= x < kN t + nN t /\ kE t <= y < kE t + nE t) /\
    (forall x y, In (x, y) (tEF t) -> kG t <= x < kE t + nE t /\ kF t <= y < kF t + nF t) /\
    (forall x y, In (x, y) (tNF t) -> 0 <= x < kN t + nN t /\ kF t <= y < kF t + nF t) /\
    (forall x y, In (x, y) (tGE t) -> 0 <= x < kF t /\ 0 <= y < kE t) /\
    (forall x y, In (x, y) (tGN t) -> 0 <= x < kF t /\ 0 <= y < kN t) /\
    (forall x y, In (x, y) (tEN t) -> 0 <= x < kE t /\ 0 <= y < kN t) /\
    NoDup (tNE t) /\ NoDup (tEF t) /\ NoDup (tNF t) /\ NoDup (tGE t) /\
    (forall j, kG t <= j < kE t -> length (sel (tEF t) j) = length (sel (turn (tGE t)) j)) /\
    (forall j, kE t <= j < kE t + nE t -> length (sel (turn (tNE t)) j) = 2 /\ 1 <= length (sel (tEF t) j) <= 2) /\
    (forall i, kF t <= i < kF t + nF t -> length (sel (turn (tNF t)) i) = 3 /\ length (sel (turn (tEF t)) i) = 3 /\
      (forall j, In j (sel (turn (tEF t)) i) -> incl (enodes t j) (sel (turn (tNF t)) i)) /\
      (forall a b, In a (sel (turn (tNF t)) i) -> In b (sel (turn (tNF t)) i) -> a <> b ->
         exists j, In j (sel (turn (tEF t)) i) /\ In a (enodes t j) /\ In b (enodes t j))) /\
    (forall i j, kE t <= i < kE t + nE t -> kE t <= j < kE t + nE t -> incl (enodes t i) (enodes t j) -> i = j) /\
    (forall n, n < kN t -> (In n (map snd (tGN t)) <-> In n (map fst (tNF t)))) /\
    (forall n, kN t <= n < kN t + nN t -> In n (map fst (tNF t))) /\
    NoDup (tA t) /\ (forall i, In i (tA t) <-> kF t <= i < kF t + nF t).
  Proof.
    pose proof C as K. unfold check in K. rewrite !andb_true_iff in K.
    destruct K as (((((((((((((((((((c1 & c2) & c3) & c4) & c5) & c6) & c7) & c8) & c9) & c10) & c11) & c12) & c13) & c14) & c15) & c16) & c17) & c18) & c19) & c20).
    rewrite forallb_forall in c12, c13, c14, c15, c16, c17.
    split; [apply Nat.leb_le; auto|].
    split; [apply rangeb_ok; auto|]. split; [apply rangeb_ok; auto|]. split; [apply rangeb_ok; auto|].
    split; [apply rangeb_ok; auto|]. split; [apply rangeb_ok; auto|]. split; [apply rangeb_ok; auto|].
    split; [apply nodupb2_ok; auto|]. split; [apply nodupb2_ok; auto|]. split; [apply nodupb2_ok; auto|].
    split; [apply nodupb2_ok; auto|].
    split. { intros j Hj. apply Nat.eqb_eq. apply c12. apply in_seq. lia. }
    split. { intros j Hj. specialize (c13 j). rewrite in_seq, !andb_true_iff in c13. destruct c13 as [[K1 K2] K3]; [lia|].
      apply Nat.eqb_eq in K1. apply Nat.leb_le in K2. apply Nat.leb_le in K3. lia. }
    split. { intros i Hi. specialize (c14 i). rewrite in_seq, !andb_true_iff in c14. destruct c14 as [[[K1 K2] K3] K4]; [lia|].
      apply Nat.eqb_eq in K1. apply Nat.eqb_eq in K2. rewrite forallb_forall in K3, K4. split; auto. split; auto. split.
      - intros j Hj. apply inclb_incl. auto.
      - intros a b Ha Hb N. specialize (K4 a Ha). rewrite forallb_forall in K4. specialize (K4 b Hb).
        apply orb_true_iff in K4 as [K4|K4]; [apply Nat.eqb_eq in K4; contradiction|].
        apply existsb_exists in K4 as (j & Hj & K4). apply andb_true_iff in K4 as [K4 K5].
        apply memb_In in K4. apply memb_In in K5. exists j. auto. }
    split. { intros i j Hi Hj H. specialize (c15 i). rewrite in_seq, forallb_forall in c15. specialize (c15 ltac:(lia) j).
      rewrite in_seq in c15. specialize (c15 ltac:(lia)). apply orb_true_iff in c15 as [c15|c15]; [apply Nat.eqb_eq; auto|].
      apply inclb_incl in H. rewrite H in c15. discriminate. }
    split. { intros n Hn. specialize (c16 n). rewrite in_seq in c16. specialize (c16 ltac:(lia)). apply eqb_prop in c16.
      rewrite <- !memb_In, c16. tauto. }
    split. { intros n Hn. apply memb_In. apply c17. apply in_seq. lia. }
    split; [apply nodupb_ok; auto|].
    intros i. apply inclb_incl in c19. apply inclb_incl in c20. split.
    - intros H. apply c19 in H. apply in_seq in H. lia.
    - intros H. apply c20. apply in_seq. lia.
  Qed.

  Lemma DE_In : forall e, In e pDE <-> exists j, j < kG t /\ e = ee j.
  Proof.
    destruct checks as (Hg & _). destruct (fi_len Fi) as (_ & L & _). intros e. unfold pDE. split.
    - intros H. apply (List.In_nth _ _ 0) in H as (j & Hj & E). rewrite firstn_length in Hj.
      exists j. split; [lia|]. rewrite <- E. unfold ee, tabE. rewrite app_nth1 by lia.
      rewrite <- (firstn_skipn (kG t) E0) at 2. rewrite app_nth1; auto. rewrite firstn_length. lia.
    - intros (j & Hj & ->). unfold ee, tabE. rewrite app_nth1 by lia.
      rewrite <- (firstn_skipn (kG t) E0) at 1. rewrite app_nth1 by (rewrite firstn_length; lia).
      apply nth_In. rewrite firstn_length. lia.
  Qed.

  Lemma AE_In : forall e, In e pAE <-> exists j, kE t <= j < kE t + nE t /\ e = ee j.
  Proof.
    intros e. unfold pAE. rewrite in_seq. split.
    - intros H. exists (kE t + (e - next_e h)). split; [lia|]. rewrite ee_new by lia. lia.
    - intros (j & Hj & ->). rewrite ee_new by lia. lia.
  Qed.
  Lemma AN_In : forall n, In n pAN <-> exists j, kN t <= j < kN t + nN t /\ n = nn j.
  Proof.
    intros e. unfold pAN. rewrite in_seq. split.
    - intros H. exists (kN t + (e - next_n h)). split; [lia|]. rewrite nn_new by lia. lia.
    - intros (j & Hj & ->). rewrite nn_new by lia. lia.
  Qed.
  Lemma A_In : forall f, In f pA <-> exists j, kF t <= j < kF t + nF t /\ f = ff j.
  Proof.
    destruct checks as (_ & _ & _ & _ & _ & _ & _ & _ & _ & _ & _ & _ & _ & _ & _ & _ & _ & _ & H).
    intros f. unfold pA. rewrite in_map_iff. split.
    - intros (j & <- & Hj). exists j. rewrite <- H. auto.
    - intros (j & Hj & ->). exists j. rewrite H. auto.
  Qed.
  Lemma E0_In : forall e, In e E0 -> exists j, j < kE t /\ e = ee j.
  Proof.
    destruct (fi_len Fi) as (_ & L & _). intros e H. apply (List.In_nth _ _ 0) in H as (j & Hj & E).
    exists j. split; [lia|]. unfold ee, tabE. rewrite app_nth1 by lia. auto.
  Qed.
  Lemma F0_In : forall f, In f F0 -> exists j, j < kF t /\ f = ff j.
  Proof.
    destruct (fi_len Fi) as (_ & _ & L). intros e H. apply (List.In_nth _ _ 0) in H as (j & Hj & E).
    exists j. split; [lia|]. unfold ff, tabF. rewrite app_nth1 by lia. auto.
  Qed.
  Lemma N0_In : forall n, In n N0 -> exists j, j < kN t /\ n = nn j.
  Proof.
    destruct (fi_len Fi) as (L & _). intros e H. apply (List.In_nth _ _ 0) in H as (j & Hj & E).
    exists j. split; [lia|]. unfold nn, tabN. rewrite app_nth1 by lia. auto.
  Qed.

  Lemma keep_count : forall (l : list nat) d, NoDup l -> NoDup d ->
    length (filter (fun x => memb x l) d) + length (keep d l) = length l.
  Proof.
    intros l d Nl Nd. rewrite (Permutation_length (l := filter _ d) (l' := filter (fun x => memb x d) l)).
    - clear. unfold keep. induction l as [|x l IH]; cbn; auto.
      change (existsb (Nat.eqb x) d) with (memb x d). destruct (memb x d); cbn; lia.
    - apply NoDup_Permutation; try (apply NoDup_filter; auto). intros x.
      rewrite !filter_In, !memb_In. tauto.
  Qed.

  (** Number of gone faces at an edge. *)
  Lemma gone_count : forall j, j < kE t ->
    length (filter (fun f => memb f (e_faces h (ee j))) F0) = length (sel (turn (tGE t)) j).
  Proof.
    destruct checks as (_ & _ & _ & _ & c5 & _ & _ & _ & _ & _ & c11 & _).
    intros j Hj. rewrite <- (map_length ff (sel (turn (tGE t)) j)). apply Permutation_length.
    apply NoDup_Permutation.
    - apply NoDup_filter. apply (fi_nd Fi).
    - assert (K : forall x, In x (sel (turn (tGE t)) j) -> x < kF t + nF t).
      { intros x Hx. apply sel_In in Hx. rewrite turn_In in Hx. apply c5 in Hx. lia. }
      pose proof (sel_NoDup _ j (turn_NoDup _ c11)) as N. revert K N. generalize (sel (turn (tGE t)) j).
      intros l K N. induction N as [|x l Hx N IH]; cbn; constructor.
      + intros Q. apply in_map_iff in Q as (y & E & Q). apply ff_inj in E; [subst; contradiction| |].
        * apply K. right; auto.
        * apply K. left; auto.
      + apply IH. intros y Hy. apply K. right; auto.
    - intros f. rewrite filter_In, memb_In, in_map_iff. split.
      + intros [Hf Hm]. apply F0_In in Hf as (i & Hi & ->). exists i. split; auto.
        apply sel_In. rewrite turn_In.
        assert (Q : In (ee j) (f_edges h (ff i))).
        { apply (t_ef h T); auto; [apply (fi_in Fi), ee_old; auto|apply (fi_in Fi), ff_old; auto]. }
        apply (Permutation_in _ (fi_fe Fi i Hi)) in Q. apply in_map_iff in Q as (k & E & Q).
        apply sel_In in Q. pose proof (c5 _ _ Q). apply ee_inj in E; [subst; auto|lia|lia].
      + intros (i & <- & Q). apply sel_In in Q. rewrite turn_In in Q. pose proof (c5 _ _ Q).
        assert (Hi : i < kF t) by lia. split; [apply ff_old; auto|].
        apply (t_ef h T); [apply (fi_in Fi), ee_old; auto|apply (fi_in Fi), ff_old; auto|].
        apply (Permutation_in _ (Permutation_sym (fi_fe Fi i Hi))). apply in_map. apply sel_In. auto.
  Qed.

  Lemma sel_EF : forall j, j < kE t + nE t -> sel pEF (ee j) = map ff (sel (tEF t) j).
  Proof.
    destruct checks as (_ & _ & c3 & _). intros j Hj. unfold pEF. eapply ren_sel; [|exact Hj|exact ee_inj].
    intros x y K. apply c3 in K. lia.
  Qed.
  Lemma sel_EF_out : forall e, ~ In e E0 -> In e (g_edges h) -> sel pEF e = [].
  Proof.
    destruct checks as (_ & _ & c3 & _). intros e H He. apply sel_none. intros y K.
    apply ren_In in K as (i & j & K & -> & _). apply c3 in K. destruct (Nat.lt_ge_cases i (kE t)) as [L|L].
    - apply H. apply ee_old; auto.
    - apply (t_edge_alloc h T) in He. rewrite ee_new in He; lia.
  Qed.

  Lemma old_edges : forall e, In e (g_edges h) -> ~ In e pDE ->
    length (sel pEF e) + length (keep F0 (e_faces h e)) = length (e_faces h e).
  Proof.
    destruct checks as (_ & _ & _ & _ & _ & _ & _ & _ & _ & _ & _ & c12 & _).
    intros e He Hd. destruct (t_edge_faces h T e He) as (_ & Nd & _).
    rewrite <- (keep_count (e_faces h e) F0) by (auto; apply (fi_nd Fi)). f_equal.
    destruct (in_dec Nat.eq_dec e E0) as [I|I].
    - apply E0_In in I as (j & Hj & ->). rewrite gone_count by auto. rewrite sel_EF, map_length by lia.
      apply c12. split; auto. destruct (Nat.lt_ge_cases j (kG t)) as [L|L]; auto. exfalso. apply Hd. apply DE_In. eauto.
    - rewrite sel_EF_out by auto. cbn. destruct (filter _ F0) as [|f r] eqn:E; auto. exfalso.
      assert (K : In f (filter (fun f => memb f (e_faces h e)) F0)) by (rewrite E; left; auto).
      apply filter_In in K as [K1 K2]. apply memb_In in K2. apply F0_In in K1 as (i & Hi & ->). apply I.
      assert (Q : In e (f_edges h (ff i))) by (apply (t_ef h T); auto; apply (fi_in Fi), ff_old; auto).
      apply (Permutation_in _ (fi_fe Fi i Hi)) in Q. apply in_map_iff in Q as (k & <- & Q).
      apply sel_In in Q. destruct checks as (_ & _ & _ & _ & c5 & _). apply c5 in Q. apply ee_old. lia.
  Qed.

  Lemma caps : forall e, In e (g_edges h) /\ ~ In e pDE \/ In e pAE ->
    (if e <? next_e h then length (keep F0 (e_faces h e)) else 0) + length (sel pEF e) <= 2.
  Proof.
    destruct checks as (_ & _ & _ & _ & _ & _ & _ & _ & _ & _ & _ & _ & c13 & _).
    intros e [[He Hd]|He].
    - pose proof (t_edge_alloc h T e He) as L. apply Nat.ltb_lt in L. rewrite L.
      pose proof (old_edges e He Hd). destruct (t_edge_faces h T e He) as (K & _). lia.
    - apply AE_In in He as (j & Hj & ->). rewrite sel_EF, map_length by lia.
      rewrite ee_new by lia. destruct (Nat.ltb_spec (next_e h + (j - kE t)) (next_e h)); [lia|].
      specialize (c13 j Hj). lia.
  Qed.

  Section Result.
    Variable h' : heap.
    Hypothesis Ap : applied h h' F0 pDE pAN pAE pA pNE pEF pNF.

    Lemma sel_turn_NE : forall j, j < kE t + nE t -> sel (turn pNE) (ee j) = map nn (sel (turn (tNE t)) j).
    Proof.
      destruct checks as (_ & c2 & _). intros j Hj. unfold pNE. rewrite ren_turn.
      eapply ren_sel; [|exact Hj|exact ee_inj]. intros x y K. rewrite turn_In in K. apply c2 in K. lia.
    Qed.
    Lemma sel_turn_NF : forall j, j < kF t + nF t -> sel (turn pNF) (ff j) = map nn (sel (turn (tNF t)) j).
    Proof.
      destruct checks as (_ & _ & _ & c4 & _). intros j Hj. unfold pNF. rewrite ren_turn.
      eapply ren_sel; [|exact Hj|exact ff_inj]. intros x y K. rewrite turn_In in K. apply c4 in K. lia.
    Qed.
    Lemma sel_turn_EF : forall j, j < kF t + nF t -> sel (turn pEF) (ff j) = map ee (sel (turn (tEF t)) j).
    Proof.
      destruct checks as (_ & _ & c3 & _). intros j Hj. unfold pEF. rewrite ren_turn.
      eapply ren_sel; [|exact Hj|exact ff_inj]. intros x y K. rewrite turn_In in K. apply c3 in K. lia.
    Qed.

    Lemma enodes_ok : forall j, j < kE t + nE t -> Permutation (e_nodes h' (ee j)) (map nn (enodes t j)).
    Proof.
      intros j Hj. unfold enodes. destruct (Nat.ltb_spec j (kE t)) as [L|L].
      - rewrite (ap_e_nodes _ _ _ _ _ _ _ _ _ _ Ap); [apply (fi_en Fi); auto|]. apply (fi_in Fi), ee_old; auto.
      - destruct (ap_new_e _ _ _ _ _ _ _ _ _ _ Ap (ee j)) as [K _]; [apply AE_In; eauto|].
        rewrite K, sel_turn_NE by auto. apply Permutation_refl.
    Qed.
    Lemma enodes_range : forall j k, j < kE t + nE t -> In k (enodes t j) -> k < kN t + nN t.
    Proof.
      destruct checks as (_ & c2 & _ & _ & _ & _ & c7 & _).
      intros j k Hj H. unfold enodes in H. destruct (j <? kE t); apply sel_In in H.
      - apply c7 in H. lia.
      - rewrite turn_In in H. apply c2 in H. lia.
    Qed.

    Lemma incl_nn : forall a b, (forall x, In x a -> x < kN t + nN t) -> (forall x, In x b -> x < kN t + nN t) ->
      incl (map nn a) (map nn b) -> incl a b.
    Proof.
      intros a b Ha Hb H x Hx. assert (K : In (nn x) (map nn b)) by (apply H, in_map; auto).
      apply in_map_iff in K as (y & E & Hy). apply nn_inj in E; [subst; auto|auto|auto].
    Qed.

    Hypothesis Uniq : forall e1 e2, In e1 pAE -> In e2 (g_edges h) -> ~ In e2 pDE ->
      incl (e_nodes h' e1) (e_nodes h e2) -> False.

    Lemma tmpl_good : good_patch h h' F0 pDE pAN pAE pA pNE pEF pNF.
    Proof.
      destruct checks as (c1 & c2 & c3 & c4 & c5 & c6 & c7 & c8 & c9 & c10 & c11 & c12 & c13 & c14 & c15 & c16 & c17 & c18 & c19).
      assert (R : forall k, k < kN t + nN t -> In (nn k) (g_nodes h ++ pAN)).
      { intros k Hk. apply in_app_iff. destruct (Nat.lt_ge_cases k (kN t)) as [L|L].
        - left. apply (fi_in Fi), nn_old; auto.
        - right. apply AN_In. exists k. split; auto. }
      constructor.
      - split; [|split]; (eapply ren_NoDup; [| | |eassumption]); try apply nn_inj; try apply ee_inj; try apply ff_inj.
        + intros x y K. apply c2 in K. lia.
        + intros x y K. apply c3 in K. lia.
        + intros x y K. apply c4 in K. lia.
      - intros n e K. apply ren_In in K as (i & j & K & -> & ->). apply c2 in K. split; [apply R; lia|].
        apply AE_In. exists j. split; auto. lia.
      - intros e f K. apply ren_In in K as (i & j & K & -> & ->). apply c3 in K. split; [|apply A_In; exists j; split; auto; lia].
        destruct (Nat.lt_ge_cases i (kE t)) as [L|L].
        + left. split; [apply (fi_in Fi), ee_old; auto|]. intros Q. apply DE_In in Q as (k & Hk & E).
          apply ee_inj in E; lia.
        + right. apply AE_In. exists i. split; auto. lia.
      - intros n f K. apply ren_In in K as (i & j & K & -> & ->). apply c4 in K. split; [apply R; lia|].
        apply A_In. exists j. split; auto. lia.
      - intros e f K _ Q. apply DE_In in K as (j & Hj & ->). apply (fi_gone Fi j Hj). auto.
      - apply old_edges.
      - intros e K. apply AE_In in K as (j & Hj & ->). rewrite sel_turn_NE, sel_EF, !map_length by lia. apply c13. auto.
      - intros f K. apply A_In in K as (i & Hi & ->). rewrite sel_turn_NF, sel_turn_EF, !map_length by lia.
        destruct (c14 i Hi) as (d1 & d2 & d3 & d4). split; auto. split; auto. split.
        + intros e K. apply in_map_iff in K as (j & <- & K).
          assert (Hj : j < kE t + nE t) by (rewrite sel_In, turn_In in K; apply c3 in K; lia).
          intros n Hn. apply (Permutation_in _ (enodes_ok j Hj)) in Hn. apply in_map_iff in Hn as (k & <- & Hn).
          apply in_map. apply (d3 j); auto.
        + intros a b Ha Hb N. apply in_map_iff in Ha as (x & <- & Ha). apply in_map_iff in Hb as (y & <- & Hb).
          destruct (d4 x y Ha Hb) as (j & K1 & K2 & K3); [intros ->; auto|]. exists (ee j).
          assert (Hj : j < kE t + nE t) by (rewrite sel_In, turn_In in K1; apply c3 in K1; lia).
          split; [apply in_map; auto|].
          split; apply (Permutation_in _ (Permutation_sym (enodes_ok j Hj))); apply in_map; auto.
      - intros e1 e2 K1 K2 Q. apply AE_In in K1 as (i & Hi & ->). apply AE_In in K2 as (j & Hj & ->). f_equal.
        apply c15; auto. apply incl_nn; try (intros x; apply enodes_range; lia).
        intros n Hn. apply (Permutation_in _ (Permutation_sym (enodes_ok i ltac:(lia)))) in Hn. apply Q in Hn.
        apply (Permutation_in _ (enodes_ok j ltac:(lia))). auto.
      - exact Uniq.
    Qed.

    Lemma cover_nodes : forall n, In n (g_nodes h) ->
      ((exists f, In f F0 /\ In f (n_faces h n)) <-> exists f, In (n, f) pNF).
    Proof.
      destruct checks as (c1 & c2 & c3 & c4 & c5 & c6 & c7 & c8 & c9 & c10 & c11 & c12 & c13 & c14 & c15 & c16 & c17 & c18 & c19).
      intros n Hn. split.
      - intros (f & Hf & K). apply F0_In in Hf as (i & Hi & ->).
        apply (t_nf h T) in K; auto; [|apply (fi_in Fi), ff_old; auto].
        apply (Permutation_in _ (fi_fn Fi i Hi)) in K. apply in_map_iff in K as (k & <- & K). apply sel_In in K.
        pose proof (c6 _ _ K). assert (Q : In k (map fst (tNF t))).
        { apply c16; [lia|]. apply in_map_iff. exists (i, k). auto. }
        apply in_map_iff in Q as ([k' j] & E & Q). cbn in E. subst k'. exists (ff j). apply ren_In. exists k, j. auto.
      - intros (f & K). apply ren_In in K as (k & j & K & -> & ->). pose proof (c4 _ _ K).
        assert (L : k < kN t).
        { destruct (Nat.lt_ge_cases k (kN t)) as [L|L]; auto. apply (t_node_alloc h T) in Hn. rewrite nn_new in Hn; lia. }
        assert (Q : In k (map snd (tGN t))).
        { apply c16; auto. apply in_map_iff. exists (k, j). auto. }
        apply in_map_iff in Q as ([i k'] & E & Q). cbn in E. subst k'. pose proof (c6 _ _ Q).
        exists (ff i). split; [apply ff_old; lia|]. apply (t_nf h T); auto; [apply (fi_in Fi), ff_old; lia|].
        apply (Permutation_in _ (Permutation_sym (fi_fn Fi i ltac:(lia)))). apply in_map. apply sel_In. auto.
    Qed.

    Lemma cover_new : forall n, In n pAN -> exists f, In (n, f) pNF.
    Proof.
      destruct checks as (c1 & c2 & c3 & c4 & c5 & c6 & c7 & c8 & c9 & c10 & c11 & c12 & c13 & c14 & c15 & c16 & c17 & c18 & c19).
      intros n Hn. apply AN_In in Hn as (k & Hk & ->). pose proof (c17 k Hk) as Q.
      apply in_map_iff in Q as ([k' j] & E & Q). cbn in E. subst k'. exists (ff j). apply ren_In. exists k, j. auto.
    Qed.

    Lemma cover_edges : forall e, In e (g_edges h) -> ~ In e pDE ->
      ((exists f, In f F0 /\ In f (e_faces h e)) <-> exists f, In (e, f) pEF).
    Proof.
      intros e He Hd. pose proof (old_edges e He Hd) as K. destruct (t_edge_faces h T e He) as (_ & Nd & _).
      rewrite <- (keep_count (e_faces h e) F0) in K by (auto; apply (fi_nd Fi)).
      assert (L : length (sel pEF e) = length (filter (fun x => memb x (e_faces h e)) F0)) by lia.
      split.
      - intros (f & H1 & H2). destruct (sel pEF e) as [|g r] eqn:E.
        + destruct (filter _ F0) as [|y s] eqn:E2; [|discriminate]. exfalso.
          assert (Q : In f (filter (fun x => memb x (e_faces h e)) F0)) by (apply filter_In; rewrite memb_In; auto).
          rewrite E2 in Q. destruct Q.
        + exists g. apply sel_In. rewrite E. left; auto.
      - intros (f & H). apply sel_In in H. destruct (filter (fun x => memb x (e_faces h e)) F0) as [|y s] eqn:E2.
        + destruct (sel pEF e); [destruct H|discriminate].
        + exists y. assert (Q : In y (filter (fun x => memb x (e_faces h e)) F0)) by (rewrite E2; left; auto).
          apply filter_In in Q. rewrite memb_In in Q. auto.
    Qed.
  End Result.

  (** New edges with a new node cannot coincide with old edges. *)
  Lemma uniq_new : forall h', applied h h' F0 pDE pAN pAE pA pNE pEF pNF ->
    forallb (fun j => existsb (fun k => kN t <=? k) (sel (turn (tNE t)) j)) (seq (kE t) (nE t)) = true ->
    forall e1 e2, In e1 pAE -> In e2 (g_edges h) -> ~ In e2 pDE -> incl (e_nodes h' e1) (e_nodes h e2) -> False.
  Proof.
    intros h' Ap K e1 e2 H1 H2 _ Hi. rewrite forallb_forall in K. apply AE_In in H1 as (j & Hj & ->).
    specialize (K j). rewrite in_seq in K. specialize (K ltac:(lia)). apply existsb_exists in K as (k & Hk & L).
    apply Nat.leb_le in L. destruct checks as (_ & c2 & _).
    destruct (ap_new_e _ _ _ _ _ _ _ _ _ _ Ap (ee j)) as [E _]; [apply AE_In; eauto|].
    assert (Q : In (nn k) (e_nodes h' (ee j))).
    { rewrite E, sel_turn_NE by lia. apply in_map. auto. }
    apply Hi in Q. destruct (t_edge_nodes h T e2 H2) as (_ & _ & I). apply I in Q. apply (t_node_alloc h T) in Q.
    apply sel_In in Hk. rewrite turn_In in Hk. apply c2 in Hk. rewrite nn_new in Q; lia.
  Qed.
End Tmpl.
