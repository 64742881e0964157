(** Vocabulary for the properties of decompositions. *)

From Coq Require Import ZArith NArith Ascii Bool List.
From Verif Require Import Py Heap GridModel GridSpec.
Import ListNotations.
Open Scope list_scope.

Section DecompSpec.
  Context {F : FloatOps}.

  (** The zones of [h] whose name occurs in [names], in order. *)
  Definition zones_named (h : heap) (names : list str) (K : list nat) : Prop :=
    sublist_of (fun z => In (z_name h z) names) (g_zones h) K.

  (** A run of one of the decompositions of the grid. *)
  Inductive decomposition (nm : option str) : M unit -> Prop :=
  | d_mono : decomposition nm (decompose_mono nm)
  | d_random : forall rand count, decomposition nm (decompose_random rand count nm)
  | d_linear : forall count, decomposition nm (decompose_linear count nm)
  | d_farhat : forall count names, decomposition nm (decompose_farhat count nm names)
  | d_hier : forall fns levels names, order_ok -> Forall mesh_sign fns ->
      decomposition nm (decompose_hierarchical fns levels nm names).

  (** A predicate that does not read the search marks. *)
  Definition ignores_marks (pred : heap -> nat -> bool) : Prop :=
    forall h v f, pred (set_f_mark h v) f = pred h f.

  (** Faces outside the zones [K]. *)
  Definition outside (h : heap) (K : list nat) (f : nat) : Prop :=
    In f (g_faces h) /\ forall k, In k K -> ~ In f (z_faces h k).

  (** The sign function tells any two faces outside [K] apart. *)
  Definition separates (h : heap) (K : list nat) (fn : heap -> nat -> val) : Prop :=
    forall f g, outside h K f -> outside h K g -> f <> g ->
      vltb (fn h f) (fn h g) = true \/ vltb (fn h g) (fn h f) = true.

  (** [b] is a value of the sign function on the faces [fs] such that at most half of
      the faces have a smaller sign and more than half have a sign not above [b]. *)
  Definition upper_median (h : heap) (fn : heap -> nat -> val) (fs : list nat) (b : val) : Prop :=
    In b (map (fn h) fs) /\
    length (filter (fun f => vltb (fn h f) b) fs) <= length fs / 2 /\
    length fs / 2 < length (filter (fun f => negb (vltb b (fn h f))) fs).

  (** [l] and [r] are the faces of [fs], in order, with the sign below and not below
      the upper median. *)
  Definition halves (h : heap) (fn : heap -> nat -> val) (fs l r : list nat) : Prop :=
    exists b, upper_median h fn fs b /\
      sublist_of (fun f => vltb (fn h f) b = true) fs l /\
      sublist_of (fun f => vltb (fn h f) b = false) fs r.
End DecompSpec.
