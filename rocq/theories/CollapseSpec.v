(** Specification vocabulary for the contraction of an edge. *)

From Coq Require Import ZArith NArith Ascii String Bool List Permutation.
From Verif Require Import Py Heap GridSpec AtomicSpec.
Import ListNotations.
Open Scope list_scope.

Section CollapseSpec.
  Context {F : FloatOps}.

  (** Two nodes are the ends of an edge of the grid. *)
  Definition joined (h : heap) (a b : nat) : Prop :=
    exists e, In e (g_edges h) /\ Permutation (e_nodes h e) [a; b].

  (** The ends [n1], [n2] of an edge with the faces [f1] (third corner [n3]) and [f2]
      (third corner [n4]) can be made one node:
      nothing but the two faces lies between the ends; *)
  Record contractible (h : heap) (f1 f2 n1 n2 n3 n4 : nat) : Prop := {
    co_link : forall m, joined h n1 m -> joined h n2 m -> m = n3 \/ m = n4;
    co_tent : forall f g, In f (g_faces h) -> In g (g_faces h) ->
      Permutation (f_nodes h f) [n1; n3; n4] -> Permutation (f_nodes h g) [n2; n3; n4] -> False;
    (* the sides that remain are sides of other faces; *)
    co_side3 : exists g, In g (g_faces h) /\ g <> f1 /\ In n3 (f_nodes h g) /\
      (In n1 (f_nodes h g) \/ In n2 (f_nodes h g));
    co_side4 : exists g, In g (g_faces h) /\ g <> f2 /\ In n4 (f_nodes h g) /\
      (In n1 (f_nodes h g) \/ In n2 (f_nodes h g));
    (* the second end has another face; *)
    co_third : exists g, In g (g_faces h) /\ g <> f1 /\ g <> f2 /\ In n2 (f_nodes h g);
    (* all faces at the ends are in one zone; *)
    co_zone : forall g, In g (g_faces h) -> In n1 (f_nodes h g) \/ In n2 (f_nodes h g) -> f_zone h g = f_zone h f1;
    (* the middle of the edge is not the place of another node; *)
    co_point : forall n, In n (g_nodes h) -> n <> n1 -> n_rc h n <> rnd (vmid (n_p h n1) (n_p h n2));
    (* there are two more faces. *)
    co_faces : 4 <= length (g_faces h)
  }.

  (** [n1] in place of [n2]. *)
  Definition instead (n1 n2 x : nat) : nat := if Nat.eqb x n2 then n1 else x.

  (** [h'] is [h] with the edge [edge] contracted: its faces [f1], [f2], the sides [e1], [e2]
      at [n2] and [n2] itself are gone, [n1] is in place of [n2] everywhere and in the middle
      of the edge; all other attributes except numbers are as they were. *)
  Record contracted (h h' : heap) (edge e1 e2 f1 f2 n1 n2 : nat) : Prop := {
    ct_nodes : others [n2] (g_nodes h) (g_nodes h');
    ct_edges : others [edge; e1; e2] (g_edges h) (g_edges h');
    ct_faces : others [f1; f2] (g_faces h) (g_faces h');
    ct_place : n_p h' n1 = vmid (n_p h n1) (n_p h n2);
    ct_places : forall n, In n (g_nodes h') -> n <> n1 -> n_p h' n = n_p h n;
    ct_border : forall n, n_border h' n = n_border h n;
    ct_ends : forall e, In e (g_edges h') -> Permutation (e_nodes h' e) (map (instead n1 n2) (e_nodes h e));
    ct_corners : forall f, In f (g_faces h') -> Permutation (f_nodes h' f) (map (instead n1 n2) (f_nodes h f));
    ct_data : forall f, f_data h' f = f_data h f /\ f_zone h' f = f_zone h f;
    ct_zones : g_zones h' = g_zones h /\ z_name h' = z_name h /\ z_id h' = z_id h /\ z_fixed h' = z_fixed h;
    ct_rest : g_name h' = g_name h /\ g_nborder h' = g_nborder h
  }.

  (** The last [k] members of [l] have the [k] greatest of the numbers 0 .. n-1. *)
  Definition greatest_last (num : nat -> Z) (l : list nat) (k n : nat) : Prop :=
    exists a b, l = a ++ b /\ length b = k /\ Permutation (map num b) (map Z.of_nat (seq (n - k) k)).
End CollapseSpec.
