(** Specification vocabulary for the printed numbers of a grid. *)

From Coq Require Import ZArith Ascii String Bool List Permutation.
From Verif Require Import Py Heap.
Import ListNotations.
Open Scope list_scope.

Section GloIdsSpec.
  Context {F : FloatOps}.

  (** The printed lists (faces, edges, nodes) are 0 .. nf-1, 0 .. ne-1, 0 .. nn-1 in this order. *)
  Definition in_order (p : list Z * list Z * list Z) (nf ne nn : nat) : Prop :=
    p = (map Z.of_nat (seq 0 nf), map Z.of_nat (seq 0 ne), map Z.of_nat (seq 0 nn)).

  (** The same in any order: no number is lacking and none is used twice. *)
  Definition in_some_order (p : list Z * list Z * list Z) (nf ne nn : nat) : Prop :=
    let '(fs, es, ns) := p in
    Permutation fs (map Z.of_nat (seq 0 nf)) /\ Permutation es (map Z.of_nat (seq 0 ne)) /\
    Permutation ns (map Z.of_nat (seq 0 nn)).

  (** The first edge of the face [f] is [e] and it has [k] faces. *)
  Definition begins_with (h : heap) (k f e : nat) : Prop :=
    exists r, f_edges h f = e :: r /\ length (e_faces h e) = k.

  (** [f] is the first face of the grid of this kind. *)
  Definition first_with (h : heap) (k f e : nat) : Prop :=
    exists pre post, g_faces h = pre ++ f :: post /\ begins_with h k f e /\
      forall g d, In g pre -> ~ begins_with h k g d.

  (** None of the members [d] is among the last [k] members of the list [l]. *)
  Definition not_at_end (d l : list nat) (k : nat) : Prop :=
    exists a b, l = a ++ b /\ length b = k /\ forall x, In x d -> ~ In x b.
End GloIdsSpec.
