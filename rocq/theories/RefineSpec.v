(** Specification vocabulary for refine.py. *)

From Coq Require Import ZArith NArith Bool List Permutation Relations.
From Verif Require Import Py Heap GridSpec AtomicSpec Refine.
Import ListNotations.
Open Scope list_scope.
Open Scope nat_scope.

Section RefineSpec.
  Context {F : FloatOps}.

  (** What the points of a triangle ask for: nothing; a new node inside the face [f]; one or
      two new nodes on the side of the face [f] between the nodes [u] and [v]. *)
  Inductive request : Type :=
  | RNone
  | RInner (f : nat) (p : pt)
  | RSide (f u v : nat) (p : pt)
  | RTwo (f u v : nat) (p q : pt).

  (** The new positions. *)
  Definition asked (r : request) : list pt :=
    match r with RNone => [] | RInner _ p | RSide _ _ _ p => [p] | RTwo _ _ _ p q => [p; q] end.

  (** The face the request is made for. *)
  Definition at_face (r : request) (f : nat) : Prop :=
    match r with RNone => False | RInner g _ | RSide g _ _ _ | RTwo g _ _ _ _ => f = g end.

  (** The faces of [h] that have to be divided: the face itself, or all the faces at the
      side. *)
  Definition divides (h : heap) (r : request) (f : nat) : Prop :=
    match r with
    | RNone => False
    | RInner g _ => f = g
    | RSide _ u v _ | RTwo _ u v _ _ => In f (g_faces h) /\ In u (f_nodes h f) /\ In v (f_nodes h f)
    end.

  (** The point [p] is on the side from [u] to [v] of the triangle [t] with the nodes [n1], [n2],
      [n3]: the first side with which it makes a triangle of zero area, the third one if there
      is none. *)
  Definition on_side (G : geometry) (t : tri) (n1 n2 n3 : nat) (p : pt) (u v : nat) : Prop :=
    let s1 := flat G (t_a t) (t_b t) p in
    let s2 := flat G p (t_b t) (t_c t) in
    s1 = true /\ u = n1 /\ v = n2 \/
    s1 = false /\ s2 = true /\ u = n2 /\ v = n3 \/
    s1 = false /\ s2 = false /\ u = n3 /\ v = n1.

  (** [x] = (triangle of a face of [h], points) asks for [r]: points outside the triangle and
      at its corners do not count; one point inside, one point on a side and two points on
      the same side are requests, anything else is none. *)
  Definition asks (G : geometry) (h : heap) (x : tri * list pt) (r : request) : Prop :=
    let t := fst x in let f := t_back t in
    exists n1 n2 n3 kept, In f (g_faces h) /\ f_nodes h f = [n1; n2; n3] /\
      t_a t = n_p h n1 /\ t_b t = n_p h n2 /\ t_c t = n_p h n3 /\
      sublist_of (fun p => 2 <= cls G t p) (snd x) kept /\
      match r with
      | RInner g p => g = f /\ kept = [p] /\ cls G t p <> 2
      | RSide g u v p => g = f /\ kept = [p] /\ cls G t p = 2 /\ on_side G t n1 n2 n3 p u v
      | RTwo g u v p q => g = f /\ kept = [p; q] /\ cls G t p = 2 /\ cls G t q = 2 /\
          on_side G t n1 n2 n3 p u v /\ on_side G t n1 n2 n3 q u v
      | RNone => kept = [] \/ 3 <= length kept \/
          exists p q, kept = [p; q] /\
            (cls G t p <> 2 \/ cls G t q <> 2 \/
             exists u v u' v', on_side G t n1 n2 n3 p u v /\ on_side G t n1 n2 n3 q u' v' /\ (u, v) <> (u', v'))
      end.

  (** Vect.__eq__ tells the positions of the nodes apart. *)
  Definition tells (G : geometry) (h : heap) : Prop :=
    forall n m, In n (g_nodes h) -> In m (g_nodes h) -> (same G (n_p h n) (n_p h m) = true <-> n = m).

  (** No request is made for a face that is divided by a request before it. *)
  Definition apart_requests (h : heap) (rs : list request) : Prop :=
    ForallOrdPairs (fun r r' => forall f, at_face r' f -> ~ divides h r f) rs.

  (** The new positions are different from each other and from those of the nodes (after
      rounding). *)
  Definition new_points (h : heap) (ps : list pt) : Prop :=
    NoDup (map rnd ps) /\ forall p, In p ps -> new_point h p.

  (** [h'] is the grid [h] with new nodes at [ps], in this order, in place of the faces in
      [gone]: old nodes keep their places, all the other faces stay with their nodes, edges,
      data and zone, and a new face has the data of a face in [gone]. *)
  Record refined (h h' : heap) (ps : list pt) (gone : nat -> Prop) : Prop := {
    rf_nodes : exists new, g_nodes h' = g_nodes h ++ new /\ map (n_p h') new = ps;
    rf_old_nodes : forall n, In n (g_nodes h) -> n_p h' n = n_p h n;
    rf_gone : forall f, In f (g_faces h) -> (In f (g_faces h') <-> ~ gone f);
    rf_old_faces : forall f, In f (g_faces h) -> ~ gone f ->
      f_nodes h' f = f_nodes h f /\ f_edges h' f = f_edges h f /\ f_data h' f = f_data h f /\ f_zone h' f = f_zone h f;
    rf_new_faces : forall f, In f (g_faces h') -> ~ In f (g_faces h) ->
      exists g, In g (g_faces h) /\ gone g /\ f_data h' f = f_data h g
  }.

  (** All lists reported for the triangle [t]. *)
  Definition reported (l : list entry) (s : lists) (t : nat) (p : pt) : Prop :=
    exists k, In (t, k) l /\ In p (s k).

  (** [p] is joined to [q] by steps between close points of the set [P]. *)
  Definition chained (G : geometry) (P : pt -> Prop) : pt -> pt -> Prop :=
    clos_refl_trans pt (fun p q => P p /\ P q /\ close G p q = true).
End RefineSpec.
