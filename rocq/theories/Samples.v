(** Concrete grids used by the examples beside the theorems: integers in the
    role of numbers, a builder of small grids, and a checker of [grid_ok]. *)

From Coq Require Import ZArith NArith Ascii String Bool Lia List.
From Verif Require Import Py Heap GridModel GridSpec.
Import ListNotations.
Open Scope list_scope.

(** Integers as numbers (an instance of the parameters of the model; not a model
    of repository code). *)
#[export] Instance ZOps : FloatOps := {
  val := Z; val0 := 0%Z; rval := Z; rnd1 := fun x => x; rval_dec := Z.eq_dec;
  fmt := Z_str;
  prs := fun s => match py_int s with Ok z => Some z | Raise _ => None end;
  vltb := Z.ltb;
  vdist := fun a b => match a, b with (x, y, z), (x', y', z') =>
    ((x - x') * (x - x') + (y - y') * (y - y') + (z - z') * (z - z'))%Z end;
  vmid := fun a b => match a, b with (x, y, z), (x', y', z') =>
    ((x + x') / 2, (y + y') / 2, (z + z') / 2)%Z end;
  vcen := fun a b c => match a, b, c with (x, y, z), (x', y', z'), (x'', y'', z'') =>
    ((x + x' + x'') / 3, (y + y' + y'') / 3, (z + z' + z'') / 3)%Z end
}.

Lemma Zorder_ok : @order_ok ZOps.
Proof.
  constructor; cbn; intros.
  - apply Z.ltb_irrefl.
  - rewrite Z.ltb_lt in *. lia.
  - rewrite !Z.ltb_lt in *. lia.
Qed.

Section Build.
  Context {F : FloatOps}.

  (** Builds a grid from points, triangles (indices of points) and zones (names
      with indices of triangles), in the way load does (grid.py:535-584). *)
  Definition build (pts : list pt) (tris : list (nat * nat * nat)) (zs : list (str * list nat)) : M unit :=
    for_each pts (fun p => n <- new_node p ;; add_node n true ;;; ret tt) ;;;
    for_each tris (fun t => match t with (a, b, c) =>
      f <- new_face [] ;;
      add_face f None ;;;
      link_node_face a f ;;; link_node_face b f ;;; link_node_face c f ;;;
      complex_link f a b ;;; complex_link f b c ;;; complex_link f a c end) ;;;
    for_each zs (fun z => match z with (nm, fs) =>
      i <- new_zone nm ;; append_zone i ;;; for_each fs (fun f => zone_add_face i f) end) ;;;
    post_decompose.

  Definition build_heap pts tris zs : heap := snd (build pts tris zs empty_heap).

  (** *** Checker. *)
  Definition memb (x : nat) (l : list nat) : bool := existsb (Nat.eqb x) l.
  Fixpoint nodupb (l : list nat) : bool :=
    match l with [] => true | x :: r => negb (memb x r) && nodupb r end.
  Definition inclb (l m : list nat) : bool := forallb (fun x => memb x m) l.
  Definition iffb (a b : bool) : bool := Bool.eqb a b.

  Lemma memb_In : forall x l, memb x l = true <-> In x l.
  Proof.
    intros x l. unfold memb. rewrite existsb_exists. split.
    - intros (y & Hy & E). apply Nat.eqb_eq in E. subst. auto.
    - intros H. exists x. rewrite Nat.eqb_refl. auto.
  Qed.

  Lemma nodupb_ok : forall l, nodupb l = true -> NoDup l.
  Proof.
    induction l as [|x l IH]; cbn; intros H; constructor; apply andb_prop in H as [H1 H2]; auto.
    rewrite <- memb_In. destruct (memb x l); [discriminate|discriminate].
  Qed.

  Lemma inclb_ok : forall l m, inclb l m = true -> incl l m.
  Proof.
    intros l m H x Hx. unfold inclb in H. rewrite forallb_forall in H. apply memb_In. auto.
  Qed.

  Lemma inclb_complete : forall l m, incl l m -> inclb l m = true.
  Proof. intros l m H. apply forallb_forall. intros x Hx. apply memb_In. auto. Qed.

  Lemma iffb_ok : forall x l y m, iffb (memb x l) (memb y m) = true -> (In x l <-> In y m).
  Proof. intros x l y m H. apply eqb_prop in H. rewrite <- !memb_In, H. tauto. Qed.

  Definition topo_okb (h : heap) : bool :=
    let gn := g_nodes h in let ge := g_edges h in let gf := g_faces h in
    nodupb gn && nodupb ge && nodupb gf &&
    forallb (fun n => n <? next_n h) gn && forallb (fun e => e <? next_e h) ge &&
    forallb (fun f => f <? next_f h) gf &&
    forallb (fun f => (length (f_nodes h f) =? 3) && nodupb (f_nodes h f) && inclb (f_nodes h f) gn &&
      ((length (f_edges h f) =? 3) && nodupb (f_edges h f) && inclb (f_edges h f) ge)) gf &&
    forallb (fun e => (length (e_nodes h e) =? 2) && nodupb (e_nodes h e) && inclb (e_nodes h e) gn &&
      ((1 <=? length (e_faces h e)) && (length (e_faces h e) <=? 2) && nodupb (e_faces h e) &&
       inclb (e_faces h e) gf)) ge &&
    forallb (fun n => nodupb (n_edges h n) && inclb (n_edges h n) ge &&
      (nodupb (n_faces h n) && inclb (n_faces h n) gf)) gn &&
    forallb (fun n => forallb (fun e => iffb (memb e (n_edges h n)) (memb n (e_nodes h e))) ge) gn &&
    forallb (fun n => forallb (fun f => iffb (memb f (n_faces h n)) (memb n (f_nodes h f))) gf) gn &&
    forallb (fun e => forallb (fun f => iffb (memb f (e_faces h e)) (memb e (f_edges h f))) gf) ge &&
    forallb (fun f => forallb (fun e => inclb (e_nodes h e) (f_nodes h f)) (f_edges h f)) gf &&
    forallb (fun f => forallb (fun a => forallb (fun b => (a =? b) ||
      existsb (fun e => memb a (e_nodes h e) && memb b (e_nodes h e)) (f_edges h f))
      (f_nodes h f)) (f_nodes h f)) gf &&
    forallb (fun e => forallb (fun e' => (e =? e') || negb (inclb (e_nodes h e) (e_nodes h e'))) ge) ge.

  Ltac bools := repeat match goal with
    | H : _ && _ = true |- _ => apply andb_prop in H; destruct H
    | H : forallb _ _ = true |- _ => rewrite forallb_forall in H
    end.

  Lemma topo_okb_ok : forall h, topo_okb h = true -> topo_ok h.
  Proof.
    intros h H. unfold topo_okb in H. bools.
    constructor; auto using nodupb_ok; intros.
    - apply Nat.ltb_lt. auto.
    - apply Nat.ltb_lt. auto.
    - apply Nat.ltb_lt. auto.
    - match goal with H : forall x, In x (g_faces h) -> (length (f_nodes h x) =? 3) && _ && _ && _ = true,
        H1 : In f _ |- _ => specialize (H f H1) end. bools.
      split; [apply Nat.eqb_eq; auto|]. auto using nodupb_ok, inclb_ok.
    - match goal with H : forall x, In x (g_faces h) -> (length (f_nodes h x) =? 3) && _ && _ && _ = true,
        H1 : In f _ |- _ => specialize (H f H1) end. bools.
      split; [apply Nat.eqb_eq; auto|]. auto using nodupb_ok, inclb_ok.
    - match goal with H : forall x, In x (g_edges h) -> (length (e_nodes h x) =? 2) && _ && _ && _ = true,
        H1 : In e _ |- _ => specialize (H e H1) end. bools.
      split; [apply Nat.eqb_eq; auto|]. auto using nodupb_ok, inclb_ok.
    - match goal with H : forall x, In x (g_edges h) -> (length (e_nodes h x) =? 2) && _ && _ && _ = true,
        H1 : In e _ |- _ => specialize (H e H1) end. bools.
      split; [split; apply Nat.leb_le; auto|]. auto using nodupb_ok, inclb_ok.
    - match goal with H : forall x, In x (g_nodes h) -> nodupb (n_edges h x) && _ && _ = true,
        H1 : In n _ |- _ => specialize (H n H1) end. bools. auto using nodupb_ok, inclb_ok.
    - match goal with H : forall x, In x (g_nodes h) -> nodupb (n_edges h x) && _ && _ = true,
        H1 : In n _ |- _ => specialize (H n H1) end. bools. auto using nodupb_ok, inclb_ok.
    - match goal with H : forall x, In x (g_nodes h) -> forallb (fun y => iffb (memb y (n_edges h x)) _) _ = true,
        H1 : In n _ |- _ => specialize (H n H1); rewrite forallb_forall in H; apply iffb_ok, H; auto end.
    - match goal with H : forall x, In x (g_nodes h) -> forallb (fun y => iffb (memb y (n_faces h x)) _) _ = true,
        H1 : In n _ |- _ => specialize (H n H1); rewrite forallb_forall in H; apply iffb_ok, H; auto end.
    - match goal with H : forall x, In x (g_edges h) -> forallb (fun y => iffb (memb y (e_faces h x)) _) _ = true,
        H1 : In e _ |- _ => specialize (H e H1); rewrite forallb_forall in H; apply iffb_ok, H; auto end.
    - match goal with H : forall x, In x (g_faces h) -> forallb (fun y => inclb _ _) _ = true,
        H1 : In f _ |- _ => specialize (H f H1); rewrite forallb_forall in H; apply inclb_ok, H; auto end.
    - match goal with H : forall x, In x (g_faces h) -> forallb (fun y => forallb _ _) _ = true,
        H1 : In f _, Ha : In a _, Hb : In b _ |- _ =>
        specialize (H f H1); rewrite forallb_forall in H; specialize (H a Ha);
        rewrite forallb_forall in H; specialize (H b Hb); apply orb_prop in H; destruct H as [H|H] end.
      + match goal with H : (a =? b) = true |- _ => apply Nat.eqb_eq in H; contradiction end.
      + match goal with H : existsb _ _ = true |- _ => apply existsb_exists in H; destruct H as (e & He & H) end.
        bools. exists e. rewrite <- !memb_In. rewrite memb_In. auto.
    - match goal with H : forall x, In x (g_edges h) -> forallb (fun y => (x =? y) || _) _ = true,
        H1 : In e1 _, H2 : In e2 _ |- _ =>
        specialize (H e1 H1); rewrite forallb_forall in H; specialize (H e2 H2);
        apply orb_prop in H; destruct H as [H|H] end.
      + apply Nat.eqb_eq. auto.
      + match goal with H : negb _ = true, H' : incl _ _ |- _ => rewrite (inclb_complete _ _ H') in H; discriminate end.
  Qed.

  Definition zones_okb (h : heap) : bool :=
    nodupb (g_zones h) && forallb (fun z => z <? next_z h) (g_zones h) &&
    forallb (fun z => nodupb (z_faces h z) &&
      forallb (fun f => memb f (g_faces h) && ozone_eqb (f_zone h f) (Some z)) (z_faces h z) &&
      forallb (fun f => negb (ozone_eqb (f_zone h f) (Some z)) || memb f (z_faces h z)) (g_faces h)) (g_zones h) &&
    forallb (fun f => existsb (fun z => ozone_eqb (f_zone h f) (Some z)) (g_zones h)) (g_faces h).

  Lemma ozone_eqb_eq : forall a b, ozone_eqb a b = true <-> a = b.
  Proof.
    intros [a|] [b|]; cbn; split; intros H; try discriminate; auto.
    - apply Nat.eqb_eq in H. congruence.
    - injection H as ->. apply Nat.eqb_refl.
  Qed.

  Lemma zones_okb_ok : forall h, zones_okb h = true -> zones_ok h.
  Proof.
    intros h H. unfold zones_okb in H. bools.
    constructor; auto using nodupb_ok; intros.
    - apply Nat.ltb_lt. auto.
    - match goal with H : forall x, In x (g_zones h) -> nodupb _ && _ && _ = true, H1 : In z _ |- _ =>
        specialize (H z H1) end. bools. auto using nodupb_ok.
    - match goal with H : forall x, In x (g_zones h) -> nodupb _ && _ && _ = true, H1 : In z _ |- _ =>
        specialize (H z H1) end. bools. split.
      + intros Hf.
        match goal with H : forall x, In x (z_faces h z) -> _ = true |- _ => specialize (H f Hf) end.
        bools. rewrite <- memb_In, <- ozone_eqb_eq. auto.
      + intros [Hf Hz].
        match goal with H : forall x, In x (g_faces h) -> negb _ || _ = true |- _ => specialize (H f Hf); rename H into Hx end.
        apply ozone_eqb_eq in Hz. rewrite Hz in Hx. cbn in Hx. apply memb_In. auto.
    - match goal with H : forall x, In x (g_faces h) -> existsb _ _ = true, H1 : In f _ |- _ =>
        specialize (H f H1); apply existsb_exists in H; destruct H as (z & Hz & H) end.
      exists z. rewrite <- ozone_eqb_eq. auto.
  Qed.

  Lemma grid_okb_ok : forall h, topo_okb h = true -> zones_okb h = true -> grid_ok h.
  Proof. intros. split; auto using topo_okb_ok, zones_okb_ok. Qed.
End Build.

(** A strip of [n] triangles over the points (0,0), (0,1), (1,0), (1,1), ...
    lifted to different heights. *)
Definition strip_pts (n : nat) : list (Z * Z * Z) :=
  map (fun i => (Z.of_nat (i / 2) * 30, Z.of_nat (i mod 2) * 30, Z.of_nat i * 3)%Z) (seq 0 (n + 2)).
Definition strip_tris (n : nat) : list (nat * nat * nat) := map (fun i => (i, S i, S (S i))) (seq 0 n).

(** Six triangles in a row: zones 'a' (faces 0, 1), 'b' (2, 3, 4) and 'c' (5). *)
Definition strip6 : @heap ZOps :=
  build_heap (F := ZOps) (strip_pts 6) (strip_tris 6)
    [(lit "a", [0; 1]); (lit "b", [2; 3; 4]); (lit "c", [5])]%nat.

Lemma strip6_ok : grid_ok strip6.
Proof. apply grid_okb_ok; vm_compute; reflexivity. Qed.

(** The same strip in the plane z = 0. *)
Definition flat6 : @heap ZOps :=
  build_heap (F := ZOps) (map (fun p => match p with (x, y, _) => (x, y, 0%Z) end) (strip_pts 6))
    (strip_tris 6) [(lit "a", [0; 1; 2; 3; 4; 5])]%nat.

Lemma flat6_ok : grid_ok flat6.
Proof. apply grid_okb_ok; vm_compute; reflexivity. Qed.

(** The default sign functions on sample grids. *)
Definition zaxis (i : nat) : @heap ZOps -> nat -> Z := nth i (@axis_signs ZOps) (fun _ _ => 0%Z).

(** Two different faces of a sample grid are told apart. *)
Ltac sep := let f := fresh in let g := fresh in let Hf := fresh in let Hg := fresh in let Hn := fresh in
  intros f g [Hf _] [Hg _] Hn; vm_compute in Hf; vm_compute in Hg;
  repeat match goal with H : _ \/ _ |- _ => destruct H as [H|H] end; try contradiction; subst;
  try congruence; vm_compute; auto.

Lemma fst_pair : forall A B (p : A * B) a, fst p = a -> p = (a, snd p).
Proof. intros A B [x y] a E. cbn in *. congruence. Qed.
