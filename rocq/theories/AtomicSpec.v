(** Specification vocabulary for transformations that replace a patch of a grid. *)

From Coq Require Import ZArith NArith Ascii String Bool List Permutation.
From Verif Require Import Py Heap GridSpec.
Import ListNotations.
Open Scope list_scope.

Section AtomicSpec.
  Context {F : FloatOps}.

  (** A consistent grid: incidence, zones, lists of zones, numbering, merged nodes. *)
  Definition consistent (h : heap) : Prop :=
    topo_ok h /\ zones_ok h /\ zone_lists_ok h /\ numbered h /\ nodes_merged h.

  (** Zones list nodes and edges of the grid, none of them twice. *)
  Definition listed_once (h : heap) : Prop :=
    forall z, In z (g_zones h) -> NoDup (z_nodes h z) /\ incl (z_nodes h z) (g_nodes h) /\
      NoDup (z_edges h z) /\ incl (z_edges h z) (g_edges h).

  (** The same grid, but the lists of nodes and edges of its zones need not fit their
      faces. *)
  Definition sound (h : heap) : Prop :=
    topo_ok h /\ zones_ok h /\ listed_once h /\ numbered h /\ nodes_merged h.

  (** No two faces have the same corners. *)
  Definition no_double_faces (h : heap) : Prop :=
    forall f g, In f (g_faces h) -> In g (g_faces h) -> incl (f_nodes h f) (f_nodes h g) -> f = g.

  (** [p] differs (after rounding) from the positions of all nodes. *)
  Definition new_point (h : heap) (p : pt) : Prop :=
    forall n, In n (g_nodes h) -> n_rc h n <> rnd p.

  (** A new node, edge or face as it is described in a patch: a node has a position,
      an edge two ends, a face three corners and the old face it comes from. *)
  Record patch : Type := mkPatch {
    gone_faces : list nat;
    gone_edges : list nat;
    made_nodes : list (nat * pt);
    made_edges : list (nat * (nat * nat));
    made_faces : list (nat * (nat * nat * nat) * nat)
  }.

  Definition made_face_ids (P : patch) : list nat := map (fun x => fst (fst x)) (made_faces P).

  (** The members of [l] that are not in [d]. *)
  Definition others (d l l' : list nat) : Prop := sublist_of (fun x => ~ In x d) l l'.

  (** [h'] is [h] with the patch [P]: the deleted objects are gone, the new objects are
      at the ends of the lists, with the described ends, corners, positions and data; a
      new face made from the face [g] is in the zone [dst g]; all other nodes, edges and
      faces keep their place, corners, ends, position, number, data and zone; only lists
      of zone members change in zones. *)
  Record patched_to (dst : nat -> option nat) (h h' : heap) (P : patch) : Prop := {
    (* lists *)
    pa_nodes : g_nodes h' = g_nodes h ++ map fst (made_nodes P);
    pa_edges : exists l, others (gone_edges P) (g_edges h) l /\ g_edges h' = l ++ map fst (made_edges P);
    pa_faces : exists l l', others (gone_faces P) (g_faces h) l /\ g_faces h' = l ++ l' /\
      Permutation l' (made_face_ids P);
    pa_gone : incl (gone_faces P) (g_faces h) /\ incl (gone_edges P) (g_edges h);
    (* new objects *)
    pa_new_node : forall n p, In (n, p) (made_nodes P) -> ~ In n (g_nodes h) /\ n_p h' n = p;
    pa_new_edge : forall e a b, In (e, (a, b)) (made_edges P) -> ~ In e (g_edges h) /\
      Permutation (e_nodes h' e) [a; b];
    pa_new_face : forall f a b c g, In (f, (a, b, c), g) (made_faces P) -> ~ In f (g_faces h) /\
      In g (gone_faces P) /\
      Permutation (f_nodes h' f) [a; b; c] /\ f_data h' f = f_data h g /\ f_zone h' f = dst g;
    (* other objects *)
    pa_old_node : forall n, In n (g_nodes h) -> n_p h' n = n_p h n /\ n_glo h' n = n_glo h n /\
      n_border h' n = n_border h n;
    pa_old_edge : forall e, In e (g_edges h) -> e_nodes h' e = e_nodes h e /\ e_glo h' e = e_glo h e;
    pa_old_face : forall f, In f (g_faces h) -> f_nodes h' f = f_nodes h f /\ f_data h' f = f_data h f /\
      f_glo h' f = f_glo h f /\ f_zone h' f = f_zone h f;
    pa_old_face_edges : forall f, In f (g_faces h) -> ~ In f (gone_faces P) -> f_edges h' f = f_edges h f;
    pa_zones : g_zones h' = g_zones h /\ z_name h' = z_name h /\ z_id h' = z_id h /\ z_fixed h' = z_fixed h;
    pa_rest : g_name h' = g_name h /\ g_nborder h' = g_nborder h;
    (* the new objects are none of the objects created before, even if these are deleted *)
    pa_fresh : (forall n p, In (n, p) (made_nodes P) -> next_n h <= n) /\
      (forall e x, In (e, x) (made_edges P) -> next_e h <= e) /\
      (forall f, In f (made_face_ids P) -> next_f h <= f)
  }.

  (** Each new face is in the zone of the face it was made from. *)
  Definition patched (h h' : heap) (P : patch) : Prop := patched_to (f_zone h) h h' P.

  (** The lists of members of the zones after the patch [P]: what is gone is gone from all
      lists, and the new objects are added to the lists of the zone [z] only. *)
  Definition members_to (z : nat) (h h' : heap) (P : patch) : Prop :=
    forall y, In y (g_zones h) ->
      z_nodes h' y = z_nodes h y ++ (if y =? z then map fst (made_nodes P) else []) /\
      (exists l, others (gone_edges P) (z_edges h y) l /\
         z_edges h' y = l ++ (if y =? z then map fst (made_edges P) else [])) /\
      (exists l l', others (gone_faces P) (z_faces h y) l /\ z_faces h' y = l ++ l' /\
         Permutation l' (if y =? z then made_face_ids P else [])).

  (** What the transformations do: the patch [P] with all new objects in the zone [z] gives
      a sound grid; the lists of the zones still fit their faces if all the gone faces
      were in [z]. *)
  Definition rebuilt (z : nat) (h h' : heap) (P : patch) : Prop :=
    sound h' /\ (zone_lists_ok h -> (forall f, In f (gone_faces P) -> f_zone h f = Some z) -> zone_lists_ok h') /\
    patched_to (fun _ => Some z) h h' P /\ members_to z h h' P.

  (** Changes of the numbers of nodes, edges and faces. *)
  Definition counts (h h' : heap) (n e f : nat) : Prop :=
    length (g_nodes h') = length (g_nodes h) + n /\ length (g_edges h') = length (g_edges h) + e /\
    length (g_faces h') = length (g_faces h) + f.

  (** [e] is an edge of the face [f] such that no edge of the face is longer. *)
  Definition longest (h : heap) (f e : nat) : Prop :=
    In e (f_edges h f) /\ exists a b, e_nodes h e = [a; b] /\
      forall e' a' b', In e' (f_edges h f) -> e_nodes h e' = [a'; b'] ->
        vltb (vdist (n_p h a) (n_p h b)) (vdist (n_p h a') (n_p h b')) = false.

  (** [n] is an end of an edge that has one face only. *)
  Definition on_border (h : heap) (n : nat) : Prop :=
    exists e, In e (g_edges h) /\ length (e_faces h e) = 1 /\ In n (e_nodes h e).
End AtomicSpec.
