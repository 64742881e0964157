(** Concrete data for the examples beside the theorems about printed numbers. *)

From Coq Require Import ZArith NArith Ascii String Bool Lia List Permutation.
From Verif Require Import Py Heap GridModel GridSpec GridIO FileSpec StoreSpec LoadProps Samples SamplesIO SamplesStore SamplesAtomic
  Atomic AtomicSpec AtomicActs AtomicFinal CollapseSpec GloIds GloIdsSpec GloIdsProofs.
Import ListNotations.
Open Scope list_scope.
Open Scope nat_scope.

Section Checker.
  Context {F : FloatOps}.

  Definition has (x : nat) (l : list nat) : bool := existsb (Nat.eqb x) l.
  Lemma has_ok : forall x l, has x l = true <-> In x l.
  Proof.
    intros x l. unfold has. rewrite existsb_exists. split.
    - intros (y & H & E). apply Nat.eqb_eq in E. subst y. exact H.
    - intros H. exists x. split; [exact H|apply Nat.eqb_refl].
  Qed.

  (** Checker of [contractible]. *)
  Definition contractibleb (h : heap) (f1 f2 n1 n2 n3 n4 : nat) : bool :=
    let fs := map (f_nodes h) (g_faces h) in
    forallb (fun e => forallb (fun d => negb (has n1 (e_nodes h e) && has n2 (e_nodes h d)) ||
      forallb (fun m => negb (has m (e_nodes h d)) || has m [n1; n2; n3; n4]) (e_nodes h e)) (g_edges h)) (g_edges h) &&
    forallb (fun l => negb (has n1 l && has n3 l && has n4 l)) fs &&
    existsb (fun g => negb (Nat.eqb g f1) && has n3 (f_nodes h g) && (has n1 (f_nodes h g) || has n2 (f_nodes h g))) (g_faces h) &&
    existsb (fun g => negb (Nat.eqb g f2) && has n4 (f_nodes h g) && (has n1 (f_nodes h g) || has n2 (f_nodes h g))) (g_faces h) &&
    existsb (fun g => negb (Nat.eqb g f1) && negb (Nat.eqb g f2) && has n2 (f_nodes h g)) (g_faces h) &&
    forallb (fun g => match f_zone h g, f_zone h f1 with Some a, Some b => Nat.eqb a b | _, _ => false end) (g_faces h) &&
    forallb (fun n => Nat.eqb n n1 || negb (rc_eqb (n_rc h n) (rnd (vmid (n_p h n1) (n_p h n2))))) (g_nodes h) &&
    Nat.leb 4 (length (g_faces h)).

  Lemma contractibleb_ok : forall h f1 f2 n1 n2 n3 n4, topo_ok h -> contractibleb h f1 f2 n1 n2 n3 n4 = true ->
    contractible h f1 f2 n1 n2 n3 n4.
  Proof.
    intros h f1 f2 n1 n2 n3 n4 T H. unfold contractibleb in H. cbv zeta in H.
    apply andb_prop in H as [H H8]. apply andb_prop in H as [H H7]. apply andb_prop in H as [H H6]. apply andb_prop in H as [H H5].
    apply andb_prop in H as [H H4]. apply andb_prop in H as [H H3]. apply andb_prop in H as [H1 H2].
    assert (side : forall f n, existsb (fun g => negb (Nat.eqb g f) && has n (f_nodes h g) && (has n1 (f_nodes h g) || has n2 (f_nodes h g))) (g_faces h) = true ->
      exists g, In g (g_faces h) /\ g <> f /\ In n (f_nodes h g) /\ (In n1 (f_nodes h g) \/ In n2 (f_nodes h g))).
    { intros f n K. apply existsb_exists in K as (g & Hg & K). apply andb_prop in K as [K K3]. apply andb_prop in K as [K1 K2].
      exists g. split; [exact Hg|]. split; [apply negb_true_iff, Nat.eqb_neq in K1; exact K1|]. split; [apply has_ok; exact K2|].
      apply orb_prop in K3 as [K3|K3]; apply has_ok in K3; auto. }
    constructor.
    - intros m (e & He & Pe) (d & Hd & Pd). rewrite forallb_forall in H1. specialize (H1 e He). rewrite forallb_forall in H1. specialize (H1 d Hd).
      destruct (t_edge_nodes h T e He) as (_ & Ne & _). destruct (t_edge_nodes h T d Hd) as (_ & Nd & _).
      pose proof (Permutation_NoDup Pe Ne) as Ne'. pose proof (Permutation_NoDup Pd Nd) as Nd'.
      assert (A1 : In n1 (e_nodes h e)) by (apply (Permutation_in _ (Permutation_sym Pe)); left; reflexivity).
      assert (A2 : In m (e_nodes h e)) by (apply (Permutation_in _ (Permutation_sym Pe)); right; left; reflexivity).
      assert (A3 : In n2 (e_nodes h d)) by (apply (Permutation_in _ (Permutation_sym Pd)); left; reflexivity).
      assert (A4 : In m (e_nodes h d)) by (apply (Permutation_in _ (Permutation_sym Pd)); right; left; reflexivity).
      apply has_ok in A1. apply has_ok in A3. apply has_ok in A4. rewrite A1, A3 in H1. cbn [andb negb orb] in H1.
      rewrite forallb_forall in H1. specialize (H1 m A2). rewrite A4 in H1. cbn [negb orb] in H1. apply has_ok in H1.
      apply NoDup_cons_iff in Ne' as [Q1 _]. apply NoDup_cons_iff in Nd' as [Q2 _].
      destruct H1 as [K|[K|[K|[K|[]]]]]; auto; exfalso; [apply Q1|apply Q2]; left; auto.
    - intros f g Hf _ P _. rewrite forallb_forall in H2. specialize (H2 (f_nodes h f) (in_map _ _ _ Hf)).
      assert (K1 : has n1 (f_nodes h f) = true) by (apply has_ok, (Permutation_in _ (Permutation_sym P)); left; reflexivity).
      assert (K3 : has n3 (f_nodes h f) = true) by (apply has_ok, (Permutation_in _ (Permutation_sym P)); right; left; reflexivity).
      assert (K4 : has n4 (f_nodes h f) = true) by (apply has_ok, (Permutation_in _ (Permutation_sym P)); right; right; left; reflexivity).
      rewrite K1, K3, K4 in H2. discriminate H2.
    - apply side. exact H3.
    - apply side. exact H4.
    - apply existsb_exists in H5 as (g & Hg & K). apply andb_prop in K as [K K3]. apply andb_prop in K as [K1 K2].
      exists g. split; [exact Hg|]. split; [apply negb_true_iff, Nat.eqb_neq in K1; exact K1|]. split; [apply negb_true_iff, Nat.eqb_neq in K2; exact K2|].
      apply has_ok. exact K3.
    - intros g Hg _. rewrite forallb_forall in H6. specialize (H6 g Hg). destruct (f_zone h g) as [a|]; [|discriminate H6].
      destruct (f_zone h f1) as [b|]; [|discriminate H6]. apply Nat.eqb_eq in H6. f_equal. exact H6.
    - intros n Hn Dn K. rewrite forallb_forall in H7. specialize (H7 n Hn). apply Nat.eqb_neq in Dn. rewrite Dn in H7. cbn [orb] in H7.
      apply negb_true_iff in H7. apply rc_eqb_iff in K. rewrite K in H7. discriminate H7.
    - apply Nat.leb_le. exact H8.
  Qed.

  (** Checker of [first_with]. *)
  Fixpoint first_withb (h : heap) (k : nat) (fs : list nat) : option (nat * nat) :=
    match fs with
    | [] => None
    | f :: r => match f_edges h f with e :: _ => if Nat.eqb (length (e_faces h e)) k then Some (f, e) else first_withb h k r | [] => None end
    end.

  Lemma first_withb_ok : forall h k f e, first_withb h k (g_faces h) = Some (f, e) -> first_with h k f e.
  Proof.
    intros h k f e H. unfold first_with.
    cut (forall fs, first_withb h k fs = Some (f, e) -> exists pre post, fs = pre ++ f :: post /\ begins_with h k f e /\
      forall g d, In g pre -> ~ begins_with h k g d); [intros K; exact (K _ H)|]. clear H.
    induction fs as [|g fs IH]; intros H; [discriminate H|]. cbn [first_withb] in H. destruct (f_edges h g) as [|d ds] eqn:Eg; [discriminate H|].
    destruct (Nat.eqb (length (e_faces h d)) k) eqn:Ek.
    - injection H as -> ->. exists [], fs. split; [reflexivity|]. split; [exists ds; split; [exact Eg|apply Nat.eqb_eq; exact Ek]|intros ? ? []].
    - destruct (IH H) as (pre & post & -> & B & No). exists (g :: pre), post. split; [reflexivity|]. split; [exact B|].
      intros x y [<-|Hx] (r & Er & L); [|apply (No x y Hx); exists r; auto]. rewrite Eg in Er. injection Er as -> ->. apply Nat.eqb_neq in Ek. auto.
  Qed.
End Checker.

(** Seven nodes and six faces around one of them; the first edge of the first face is the one of this
    node and the node 2 of the list. *)
Definition fan : str := text_of
  (["TITLE=""fan"""; "VARIABLES=""X"", ""Y"", ""Z"", ""T"", ""Hw"""]%string ++
   zone_head "A" "7" "6" ++
   ["0 40 20 -20 -40 -20 20"; "0 0 40 40 0 -40 -40"; "5 0 0 0 0 0 0"; "1 2 3 4 5 6"; "0 0 0 0 0 0";
    "3 1 2"; "1 3 4"; "1 4 5"; "1 5 6"; "1 6 7"; "1 7 2"]%string).
Definition zoneF : @zone_rec ZOps := mkZone (lit "A") [lit "T"; lit "Hw"]
  [(0, 0, 5); (40, 0, 0); (20, 40, 0); (-20, 40, 0); (-40, 0, 0); (-20, -40, 0); (20, -40, 0)]%Z
  [[1; 0]; [2; 0]; [3; 0]; [4; 0]; [5; 0]; [6; 0]]%Z [(2, 0, 1); (0, 2, 3); (0, 3, 4); (0, 4, 5); (0, 5, 6); (0, 6, 1)].
Definition fan_evs : list (@event ZOps) := [ETitle (lit "fan"); EZone zoneF].

(** The tactics of SamplesIO.v for seven nodes. *)
Ltac nth8 := intros i; do 7 (destruct i as [|i]; [cbn; intros; match goal with
  | H : Some _ = Some _ |- _ => injection H as ?; subst
  | H : None = Some _ |- _ => discriminate H end; repeat split; repeat constructor|]);
  cbn; intros; try discriminate; destruct i; discriminate.
Ltac block8 := do 19 eexists; split; [reflexivity|];
  split; [split; [reflexivity|eexists; split; reflexivity]|];
  split; [split; [reflexivity|eexists; split; reflexivity]|];
  split; [eexists; reflexivity|]; split; [eexists; reflexivity|]; split; [eexists; reflexivity|];
  split; [reflexivity|]; split; [reflexivity|];
  split; [numbers|]; split; [numbers|]; split; [numbers|];
  split; [reflexivity|]; split; [nth8|]; split; [reflexivity|];
  split; [repeat (eapply Forall2_cons; [numbers|]); apply Forall2_nil|];
  split; [reflexivity|]; split; [nth8|]; split; [reflexivity|];
  repeat (eapply Forall2_cons; [corner|]); apply Forall2_nil.
Ltac zone8 r := refine (ff_zone _ _ _ r _ _ _ _ _); [repeat (split; [discriminate || reflexivity|]); eexists; split; reflexivity|block8|].

Lemma fan_form : @file_form ZOps [] (file_lines fan) fan_evs.
Proof.
  vm_compute file_lines.
  apply ff_title; [split; [discriminate|]; split; [reflexivity|]; eexists; split; reflexivity|].
  vars_tac. zone8 zoneF. apply ff_end.
Qed.

Lemma fan_nd : @no_degenerate ZOps (zones_of fan_evs).
Proof.
  intros t Ht. vm_compute in Ht. destruct Ht as [<-|[<-|[<-|[<-|[<-|[<-|[]]]]]]];
    repeat (constructor; [cbn; intuition discriminate|]); constructor.
Qed.

Definition fan_heap := snd (@load ZOps true fan empty_heap).
Lemma fan_run : @load ZOps true fan empty_heap = (Ok tt, fan_heap).
Proof.
  assert (E : fst (@load ZOps true fan empty_heap) = Ok tt) by (vm_compute; reflexivity).
  exact (ok_pair (@load ZOps true fan empty_heap) E).
Qed.

Lemma fan_single : no_double_faces fan_heap.
Proof. apply no_doubleb_ok. vm_compute. reflexivity. Qed.
Lemma fan_first : first_with fan_heap 2 0 0.
Proof. apply first_withb_ok. vm_compute. reflexivity. Qed.
Lemma fan_edge : e_faces fan_heap 0 = [0; 1] /\ e_nodes fan_heap 0 = [2; 0] /\ f_nodes fan_heap 0 = [2; 0; 1] /\ f_nodes fan_heap 1 = [0; 2; 3] /\
  g_faces fan_heap = [0; 1; 2; 3; 4; 5] /\ g_edges fan_heap = [0; 1; 2; 3; 4; 5; 6; 7; 8; 9; 10; 11] /\ g_nodes fan_heap = [0; 1; 2; 3; 4; 5; 6].
Proof. vm_compute. repeat split. Qed.
Lemma fan_contractible : contractible fan_heap 0 1 2 0 1 3.
Proof.
  apply contractibleb_ok; [exact (proj1 (loaded_consistent _ _ _ _ fan_run fan_form fan_nd))|vm_compute; reflexivity].
Qed.

(** The same with the node in the middle at the end of the list. *)
Definition fan2 : str := text_of
  (["TITLE=""fan"""; "VARIABLES=""X"", ""Y"", ""Z"", ""T"", ""Hw"""]%string ++
   zone_head "A" "7" "6" ++
   ["40 20 -20 -40 -20 20 0"; "0 40 40 0 -40 -40 0"; "0 0 0 0 0 0 5"; "1 2 3 4 5 6"; "0 0 0 0 0 0";
    "2 7 1"; "7 2 3"; "7 3 4"; "7 4 5"; "7 5 6"; "7 6 1"]%string).
Definition zoneF2 : @zone_rec ZOps := mkZone (lit "A") [lit "T"; lit "Hw"]
  [(40, 0, 0); (20, 40, 0); (-20, 40, 0); (-40, 0, 0); (-20, -40, 0); (20, -40, 0); (0, 0, 5)]%Z
  [[1; 0]; [2; 0]; [3; 0]; [4; 0]; [5; 0]; [6; 0]]%Z [(1, 6, 0); (6, 1, 2); (6, 2, 3); (6, 3, 4); (6, 4, 5); (6, 5, 0)].
Definition fan2_evs : list (@event ZOps) := [ETitle (lit "fan"); EZone zoneF2].

Lemma fan2_form : @file_form ZOps [] (file_lines fan2) fan2_evs.
Proof.
  vm_compute file_lines.
  apply ff_title; [split; [discriminate|]; split; [reflexivity|]; eexists; split; reflexivity|].
  vars_tac. zone8 zoneF2. apply ff_end.
Qed.

Lemma fan2_nd : @no_degenerate ZOps (zones_of fan2_evs).
Proof.
  intros t Ht. vm_compute in Ht. destruct Ht as [<-|[<-|[<-|[<-|[<-|[<-|[]]]]]]];
    repeat (constructor; [cbn; intuition discriminate|]); constructor.
Qed.

Definition fan2_heap := snd (@load ZOps true fan2 empty_heap).
Lemma fan2_run : @load ZOps true fan2 empty_heap = (Ok tt, fan2_heap).
Proof.
  assert (E : fst (@load ZOps true fan2 empty_heap) = Ok tt) by (vm_compute; reflexivity).
  exact (ok_pair (@load ZOps true fan2 empty_heap) E).
Qed.

Lemma fan2_single : no_double_faces fan2_heap.
Proof. apply no_doubleb_ok. vm_compute. reflexivity. Qed.
Lemma fan2_first : first_with fan2_heap 2 0 0.
Proof. apply first_withb_ok. vm_compute. reflexivity. Qed.
Lemma fan2_edge : e_faces fan2_heap 0 = [0; 1] /\ e_nodes fan2_heap 0 = [1; 6] /\ f_nodes fan2_heap 0 = [1; 6; 0] /\ f_nodes fan2_heap 1 = [6; 1; 2] /\
  g_nodes fan2_heap = [0; 1; 2; 3; 4; 5; 6].
Proof. vm_compute. repeat split. Qed.
Lemma fan2_contractible : contractible fan2_heap 0 1 1 6 0 2.
Proof.
  apply contractibleb_ok; [exact (proj1 (loaded_consistent _ _ _ _ fan2_run fan2_form fan2_nd))|vm_compute; reflexivity].
Qed.
Opaque fan_heap fan2_heap.

Lemma at_end : forall (a : list nat) x d, In x d -> ~ not_at_end d (a ++ [x]) 1.
Proof.
  intros a x d Hx (c & b & E & L & No). destruct b as [|y [|? ?]]; try discriminate L. apply app_inj_tail in E as [_ <-].
  apply (No x Hx). left. reflexivity.
Qed.

(** The numbers after the contraction lack one. *)
Lemma fan2_numbers : exists before after ne h', @collapse_case ZOps fan2 empty_heap = (Ok (before, after), h') /\
  in_order before 6 ne 7 /\ ~ in_some_order after 4 (ne - 3) 6.
Proof.
  destruct fan2_edge as (E1 & E2 & E3 & E4 & E5).
  assert (I3 : In 0 (f_nodes fan2_heap 0)) by (rewrite E3; right; right; left; reflexivity).
  assert (I4 : In 2 (f_nodes fan2_heap 1)) by (rewrite E4; right; right; left; reflexivity).
  destruct (collapse_ids fan2 empty_heap fan2_heap fan2_evs 0 0 0 1 1 6 0 2 fan2_run fan2_form fan2_nd fan2_single fan2_first E1 E2 I3
    ltac:(discriminate) ltac:(discriminate) I4 ltac:(discriminate) ltac:(discriminate) fan2_contractible)
    as (before & after & ne & h' & e1 & e2 & _ & _ & _ & _ & R & O & Iff).
  exists before, after, ne, h'. split; [exact R|]. split; [exact O|]. intros K. apply Iff in K as (_ & _ & K). rewrite E5 in K.
  exact (at_end [0; 1; 2; 3; 4; 5] 6 [6] (or_introl eq_refl) K).
Qed.
