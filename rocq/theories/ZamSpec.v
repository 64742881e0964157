(** Vocabulary for the properties of the zones adjacency matrix. *)

From Coq Require Import ZArith NArith Bool List.
From Verif Require Import Py Heap GridSpec.
Import ListNotations.
Open Scope list_scope.

(** [l] has exactly [n] elements (positions) satisfying [p]. *)
Definition counts {A} (p : A -> Prop) (l : list A) (n : nat) : Prop :=
  exists l', sublist_of p l l' /\ length l' = n.

Section ZamSpec.
  Context {F : FloatOps}.

  (** The edge has two faces, one in zone [z] and the other one in zone [y]. *)
  Definition joins (h : heap) (z y e : nat) : Prop :=
    exists f g, (e_faces h e = [f; g] \/ e_faces h e = [g; f]) /\
      f_zone h f = Some z /\ f_zone h g = Some y.

  (** The edge has one face only, in zone [z]. *)
  Definition bounds (h : heap) (z e : nat) : Prop :=
    exists f, e_faces h e = [f] /\ f_zone h f = Some z.

  (** Every edge has one or two faces, and these belong to zones of the list. *)
  Definition edges_in_zones (h : heap) (es zs : list nat) : Prop :=
    forall e, In e es -> (length (e_faces h e) = 1 \/ length (e_faces h e) = 2) /\
      forall f, In f (e_faces h e) -> exists z, In z zs /\ f_zone h f = Some z.

  (** Entry of a matrix. *)
  Definition entry (m : list (list nat)) (i j : nat) : option nat :=
    match nth_error m i with Some row => nth_error row j | None => None end.
End ZamSpec.
