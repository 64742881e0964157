(** Concrete grids for the examples about atomic transformations. *)

From Coq Require Import ZArith NArith Ascii String Bool Lia List Permutation.
From Verif Require Import Py Heap GridModel GridSpec DecompProofs Atomic AtomicSpec Samples.
Import ListNotations.
Open Scope list_scope.
Open Scope nat_scope.

Section Check.
  Context {F : FloatOps}.

  (** Checker of [zone_lists_ok]. *)
  Definition some_face_inb (h : heap) (fs : list nat) (z : nat) : bool := existsb (fun f => ozone_eqb (f_zone h f) (Some z)) fs.
  Definition nats_eqb (a b : list nat) : bool := if list_eq_dec Nat.eq_dec a b then true else false.
  Definition zone_listsb (h : heap) : bool := forallb (fun z =>
    nats_eqb (z_nodes h z) (filter (fun n => some_face_inb h (n_faces h n) z) (g_nodes h)) &&
    nats_eqb (z_edges h z) (filter (fun e => some_face_inb h (e_faces h e) z) (g_edges h))) (g_zones h).

  Lemma some_face_inb_ok : forall h fs z, some_face_inb h fs z = true <-> some_face_in h fs z.
  Proof.
    intros h fs z. unfold some_face_inb, some_face_in. rewrite existsb_exists. split; intros (f & A & B); exists f.
    - apply ozone_eqb_eq in B. auto.
    - rewrite ozone_eqb_eq. auto.
  Qed.

  Lemma nats_eqb_ok : forall a b, nats_eqb a b = true -> a = b.
  Proof. intros a b. unfold nats_eqb. destruct (list_eq_dec Nat.eq_dec a b); [auto|discriminate]. Qed.

  Lemma zone_listsb_ok : forall h, zone_listsb h = true -> zone_lists_ok h.
  Proof.
    intros h H z Hz. unfold zone_listsb in H. rewrite forallb_forall in H. specialize (H z Hz). apply andb_prop in H as [H1 H2].
    apply nats_eqb_ok in H1, H2. rewrite H1, H2. split; apply sublist_filter; intros x _; apply some_face_inb_ok.
  Qed.

  (** Checker of [numbered] for grids numbered in order. *)
  Definition zs_eqb (a b : list Z) : bool := if list_eq_dec Z.eq_dec a b then true else false.
  Definition numberedb (h : heap) : bool :=
    zs_eqb (map (n_glo h) (g_nodes h)) (map Z.of_nat (seq 0 (length (g_nodes h)))) &&
    zs_eqb (map (e_glo h) (g_edges h)) (map Z.of_nat (seq 0 (length (g_edges h)))) &&
    zs_eqb (map (f_glo h) (g_faces h)) (map Z.of_nat (seq 0 (length (g_faces h)))).

  Lemma zs_eqb_ok : forall a b, zs_eqb a b = true -> Permutation a b.
  Proof. intros a b. unfold zs_eqb. destruct (list_eq_dec Z.eq_dec a b); [intros _; subst; auto|discriminate]. Qed.

  Lemma numberedb_ok : forall h, numberedb h = true -> numbered h.
  Proof.
    intros h H. unfold numberedb in H. apply andb_prop in H as [H H3]. apply andb_prop in H as [H1 H2].
    apply zs_eqb_ok in H1, H2, H3. split; [auto|]. split; auto.
  Qed.

  (** Checker of [nodes_merged]. *)
  Fixpoint rc_nodupb (l : list rc) : bool :=
    match l with [] => true | x :: r => negb (existsb (rc_eqb x) r) && rc_nodupb r end.
  Definition rcs_eqb (a b : list rc) : bool := if list_eq_dec rc_dec a b then true else false.
  Definition mergedb (h : heap) : bool :=
    rc_nodupb (map (n_rc h) (g_nodes h)) && rcs_eqb (g_bag h) (map (n_rc h) (g_nodes h)) &&
    forallb (fun n => rc_eqb (n_rc h n) (rnd (n_p h n))) (g_nodes h).

  Lemma rc_eqb_iff : forall a b, rc_eqb a b = true <-> a = b.
  Proof. intros a b. unfold rc_eqb. destruct (rc_dec a b); split; intros; auto; discriminate. Qed.

  Lemma rc_nodupb_ok : forall l, rc_nodupb l = true -> NoDup l.
  Proof.
    induction l as [|x l IH]; cbn; intros H; constructor; apply andb_prop in H as [H1 H2]; auto.
    intros K. apply negb_true_iff in H1. apply not_true_iff_false in H1. apply H1. apply existsb_exists.
    exists x. split; auto. apply rc_eqb_iff. auto.
  Qed.

  Lemma mergedb_ok : forall h, mergedb h = true -> nodes_merged h.
  Proof.
    intros h H. unfold mergedb in H. apply andb_prop in H as [H H3]. apply andb_prop in H as [H1 H2].
    split; [apply rc_nodupb_ok; auto|]. split.
    - unfold rcs_eqb in H2. destruct (list_eq_dec rc_dec (g_bag h) (map (n_rc h) (g_nodes h))) as [->|]; [tauto|discriminate].
    - rewrite forallb_forall in H3. intros n Hn. apply rc_eqb_iff. auto.
  Qed.

  Definition consistentb (h : heap) : bool :=
    topo_okb h && zones_okb h && zone_listsb h && numberedb h && mergedb h.

  Lemma consistentb_ok : forall h, consistentb h = true -> consistent h.
  Proof.
    intros h H. unfold consistentb in H. apply andb_prop in H as [H H5]. apply andb_prop in H as [H H4].
    apply andb_prop in H as [H H3]. apply andb_prop in H as [H1 H2]. unfold consistent.
    auto 10 using topo_okb_ok, zones_okb_ok, zone_listsb_ok, numberedb_ok, mergedb_ok.
  Qed.

  (** Checker of [no_double_faces]. *)
  Definition no_doubleb (h : heap) : bool :=
    forallb (fun f => forallb (fun g => (f =? g) || negb (inclb (f_nodes h f) (f_nodes h g))) (g_faces h)) (g_faces h).

  Lemma no_doubleb_ok : forall h, no_doubleb h = true -> no_double_faces h.
  Proof.
    intros h H f g Hf Hg Hi. unfold no_doubleb in H. rewrite forallb_forall in H. specialize (H f Hf).
    rewrite forallb_forall in H. specialize (H g Hg). rewrite (inclb_complete _ _ Hi) in H. cbn in H.
    rewrite orb_false_r in H. apply Nat.eqb_eq. auto.
  Qed.

  (** Checker of [new_point]. *)
  Definition new_pointb (h : heap) (p : pt) : bool := forallb (fun n => negb (rc_eqb (n_rc h n) (rnd p))) (g_nodes h).
  Lemma new_pointb_ok : forall h p, new_pointb h p = true -> new_point h p.
  Proof.
    intros h p H n Hn K. unfold new_pointb in H. rewrite forallb_forall in H. specialize (H n Hn).
    apply rc_eqb_iff in K. rewrite K in H. discriminate.
  Qed.
End Check.

(** Seven nodes: six around one in the middle; two zones of three faces. *)
Definition wheel : @heap ZOps :=
  build_heap (F := ZOps) [(0, 0, 5); (40, 0, 0); (20, 40, 0); (-20, 40, 0); (-40, 0, 0); (-20, -40, 0); (20, -40, 0)]%Z
    [(0, 1, 2); (0, 2, 3); (0, 3, 4); (0, 4, 5); (0, 5, 6); (0, 6, 1)]
    [(lit "up", [0; 1; 2]); (lit "down", [3; 4; 5])].

Lemma wheel_ok : consistent wheel.
Proof. apply consistentb_ok. vm_compute. reflexivity. Qed.
Lemma wheel_single : no_double_faces wheel.
Proof. apply no_doubleb_ok. vm_compute. reflexivity. Qed.

(** The surface of a tetrahedron. *)
Definition tetra : @heap ZOps :=
  build_heap (F := ZOps) [(0, 0, 0); (30, 0, 0); (0, 30, 0); (0, 0, 30)]%Z
    [(0, 1, 2); (0, 1, 3); (0, 2, 3); (1, 2, 3)] [(lit "t", [0; 1; 2; 3])].

Lemma tetra_ok : consistent tetra.
Proof. apply consistentb_ok. vm_compute. reflexivity. Qed.
Lemma tetra_single : no_double_faces tetra.
Proof. apply no_doubleb_ok. vm_compute. reflexivity. Qed.

(** Two faces with the same corners. *)
Definition pillow : @heap ZOps :=
  build_heap (F := ZOps) [(0, 0, 0); (30, 0, 0); (0, 30, 0)]%Z [(0, 1, 2); (1, 0, 2)] [(lit "t", [0; 1])].

Lemma pillow_ok : consistent pillow.
Proof. apply consistentb_ok. vm_compute. reflexivity. Qed.

(** The same seven nodes, the middle one last in every face. *)
Definition wheel2 : @heap ZOps :=
  build_heap (F := ZOps) [(0, 0, 5); (40, 0, 0); (20, 40, 0); (-20, 40, 0); (-40, 0, 0); (-20, -40, 0); (20, -40, 0)]%Z
    [(1, 2, 0); (2, 3, 0); (3, 4, 0); (4, 5, 0); (5, 6, 0); (6, 1, 0)]
    [(lit "w", [0; 1; 2; 3; 4; 5])].

Lemma wheel2_ok : consistent wheel2.
Proof. apply consistentb_ok. vm_compute. reflexivity. Qed.
Lemma wheel2_single : no_double_faces wheel2.
Proof. apply no_doubleb_ok. vm_compute. reflexivity. Qed.
