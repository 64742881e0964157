(** Specification vocabulary for grids: consistency of a grid and frame
    conditions.  Everything here speaks about the attributes of the objects
    (heap fields) only, not about the modelled functions. *)

From Coq Require Import ZArith NArith Ascii String Bool List Permutation.
From Verif Require Import Py Heap.
Import ListNotations.
Open Scope list_scope.

Section Spec.
  Context {F : FloatOps}.

  (** Consistent incidence structure of the grid (a triangulated surface, each
      edge with one or two faces). *)
  Record topo_ok (h : heap) : Prop := {
    t_nodes_nd : NoDup (g_nodes h);
    t_edges_nd : NoDup (g_edges h);
    t_faces_nd : NoDup (g_faces h);
    t_node_alloc : forall n, In n (g_nodes h) -> n < next_n h;
    t_edge_alloc : forall e, In e (g_edges h) -> e < next_e h;
    t_face_alloc : forall f, In f (g_faces h) -> f < next_f h;
    (* every face has three different nodes and three different edges *)
    t_face_nodes : forall f, In f (g_faces h) ->
      length (f_nodes h f) = 3 /\ NoDup (f_nodes h f) /\ incl (f_nodes h f) (g_nodes h);
    t_face_edges : forall f, In f (g_faces h) ->
      length (f_edges h f) = 3 /\ NoDup (f_edges h f) /\ incl (f_edges h f) (g_edges h);
    (* every edge has two different nodes and one or two different faces *)
    t_edge_nodes : forall e, In e (g_edges h) ->
      length (e_nodes h e) = 2 /\ NoDup (e_nodes h e) /\ incl (e_nodes h e) (g_nodes h);
    t_edge_faces : forall e, In e (g_edges h) ->
      1 <= length (e_faces h e) <= 2 /\ NoDup (e_faces h e) /\ incl (e_faces h e) (g_faces h);
    t_node_edges : forall n, In n (g_nodes h) ->
      NoDup (n_edges h n) /\ incl (n_edges h n) (g_edges h);
    t_node_faces : forall n, In n (g_nodes h) ->
      NoDup (n_faces h n) /\ incl (n_faces h n) (g_faces h);
    (* the incidence lists are mutually inverse *)
    t_ne : forall n e, In n (g_nodes h) -> In e (g_edges h) ->
      (In e (n_edges h n) <-> In n (e_nodes h e));
    t_nf : forall n f, In n (g_nodes h) -> In f (g_faces h) ->
      (In f (n_faces h n) <-> In n (f_nodes h f));
    t_ef : forall e f, In e (g_edges h) -> In f (g_faces h) ->
      (In f (e_faces h e) <-> In e (f_edges h f));
    (* the edges of a face join its nodes, one edge for every pair *)
    t_tri : forall f e, In f (g_faces h) -> In e (f_edges h f) ->
      incl (e_nodes h e) (f_nodes h f);
    t_pairs : forall f a b, In f (g_faces h) -> In a (f_nodes h f) -> In b (f_nodes h f) ->
      a <> b -> exists e, In e (f_edges h f) /\ In a (e_nodes h e) /\ In b (e_nodes h e);
    (* no two edges join the same nodes *)
    t_uniq : forall e1 e2, In e1 (g_edges h) -> In e2 (g_edges h) ->
      incl (e_nodes h e1) (e_nodes h e2) -> e1 = e2
  }.

  (** The faces are partitioned between the zones of the grid. *)
  Record zones_ok (h : heap) : Prop := {
    zo_nd : NoDup (g_zones h);
    zo_alloc : forall z, In z (g_zones h) -> z < next_z h;
    zo_faces_nd : forall z, In z (g_zones h) -> NoDup (z_faces h z);
    zo_faces : forall z f, In z (g_zones h) ->
      (In f (z_faces h z) <-> In f (g_faces h) /\ f_zone h f = Some z);
    zo_cover : forall f, In f (g_faces h) ->
      exists z, In z (g_zones h) /\ f_zone h f = Some z
  }.

  (** [incident_zone h fs z]: one of the faces [fs] belongs to zone [z]. *)
  Definition some_face_in (h : heap) (fs : list nat) (z : nat) : Prop :=
    exists f, In f fs /\ f_zone h f = Some z.

  (** [sublist_of p l l']: [l'] consists of the elements of [l] satisfying [p], in
      the order of [l]. *)
  Inductive sublist_of {A} (p : A -> Prop) : list A -> list A -> Prop :=
  | sub_nil : sublist_of p [] []
  | sub_keep : forall x l l', p x -> sublist_of p l l' -> sublist_of p (x :: l) (x :: l')
  | sub_drop : forall x l l', ~ p x -> sublist_of p l l' -> sublist_of p (x :: l) l'.

  (** Every zone lists exactly the nodes and edges incident to its faces, in the
      order of the grid lists. *)
  Definition zone_lists_ok (h : heap) : Prop := forall z, In z (g_zones h) ->
    sublist_of (fun n => some_face_in h (n_faces h n) z) (g_nodes h) (z_nodes h z) /\
    sublist_of (fun e => some_face_in h (e_faces h e) z) (g_edges h) (z_edges h z).

  (** Zone identifiers are the positions in the list of zones. *)
  Definition zone_ids_ok (h : heap) : Prop :=
    forall i z, nth_error (g_zones h) i = Some z -> z_id h z = Z.of_nat i.

  (** All attributes of the grid, its nodes, edges and faces, except the zone
      membership of faces, the search marks, the list of zones and the grid
      name. *)
  Definition mesh (h : heap) :=
    ((n_glo h, n_p h, n_rc h, n_edges h, n_faces h, n_border h),
     (e_glo h, e_nodes h, e_faces h),
     (f_glo h, f_data h, f_nodes h, f_edges h),
     (g_nodes h, g_edges h, g_faces h, g_bag h, g_nborder h),
     (next_n h, next_e h, next_f h)).

  (** The global identifiers number the nodes, edges and faces in list order. *)
  Definition numbered_in_order (h : heap) : Prop :=
    (forall i n, nth_error (g_nodes h) i = Some n -> n_glo h n = Z.of_nat i) /\
    (forall i e, nth_error (g_edges h) i = Some e -> e_glo h e = Z.of_nat i) /\
    (forall i f, nth_error (g_faces h) i = Some f -> f_glo h f = Z.of_nat i).

  (** The global identifiers are 0 .. n-1 in some order. *)
  Definition numbered (h : heap) : Prop :=
    Permutation (map (n_glo h) (g_nodes h)) (map Z.of_nat (seq 0 (length (g_nodes h)))) /\
    Permutation (map (e_glo h) (g_edges h)) (map Z.of_nat (seq 0 (length (g_edges h)))) /\
    Permutation (map (f_glo h) (g_faces h)) (map Z.of_nat (seq 0 (length (g_faces h)))).

  (** Different nodes have different rounded coordinates, and the bag of
      rounded coordinates holds exactly those of the nodes. *)
  Definition nodes_merged (h : heap) : Prop :=
    NoDup (map (n_rc h) (g_nodes h)) /\
    (forall r, In r (g_bag h) <-> In r (map (n_rc h) (g_nodes h))) /\
    (forall n, In n (g_nodes h) -> n_rc h n = rnd (n_p h n)).

  (** A grid in the state that load leaves it in (before any modification of
      the mesh), with some decomposition. *)
  Definition grid_ok (h : heap) : Prop := topo_ok h /\ zones_ok h.

  (** Faces [f] and [g] share an edge that has two faces. *)
  Definition adjacent (h : heap) (f g : nat) : Prop :=
    f <> g /\ exists e, In e (f_edges h f) /\ In f (e_faces h e) /\ In g (e_faces h e).

  (** [g] can be reached from [f] through edges, visiting faces in [P] only. *)
  Inductive reach (h : heap) (P : nat -> Prop) : nat -> nat -> Prop :=
  | reach_refl : forall f, P f -> reach h P f f
  | reach_step : forall f g k, reach h P f g -> adjacent h g k -> P k -> reach h P f k.

  (** A set of faces connected through edges within itself. *)
  Definition connected (h : heap) (l : list nat) : Prop :=
    forall f g, In f l -> In g l -> reach h (fun x => In x l) f g.
End Spec.

Section DecompSpec.
  Context {F : FloatOps}.

  (** [decomposed h h' nm]: [h'] is a correctly decomposed version of the grid
      [h]: the mesh is unchanged, the faces are partitioned between the zones,
      the zones list exactly their nodes and edges, and zone identifiers are
      set; the grid is renamed if a name is given. *)
  Definition decomposed (h h' : heap) (new_name : option str) : Prop :=
    mesh h' = mesh h /\
    g_name h' = match new_name with Some s => s | None => g_name h end /\
    zones_ok h' /\ zone_lists_ok h' /\ zone_ids_ok h'.
End DecompSpec.

Section OrderSpec.
  Context {F : FloatOps}.

  (** Comparison of numbers is a strict weak order (as `<` on floats that are
      not NaN). *)
  Record order_ok : Prop := {
    o_irr : forall x, vltb x x = false;
    o_trans : forall x y z, vltb x y = true -> vltb y z = true -> vltb x z = true;
    o_weak : forall x y z, vltb x y = true -> vltb x z = true \/ vltb z y = true
  }.

  (** [fn] assigns pairwise comparable (different) signs to different faces of [fs]. *)
  Definition signs_differ (s : nat -> val) (fs : list nat) : Prop :=
    forall f g, In f fs -> In g fs -> f <> g -> vltb (s f) (s g) = true \/ vltb (s g) (s f) = true.

  (** A sign function that looks at the mesh only. *)
  Definition mesh_sign (fn : heap -> nat -> val) : Prop :=
    forall h h' f, mesh h' = mesh h -> fn h' f = fn h f.
End OrderSpec.

Section CutSpec.
  Context {F : FloatOps}.

  (** Some face of [l] is incident to the edge [e]. *)
  Definition touches (h : heap) (e : nat) (l : list nat) : bool :=
    existsb (fun f => if in_dec Nat.eq_dec f l then true else false) (e_faces h e).

  (** Number of grid edges between the faces [l] and the faces [r]. *)
  Definition cut_count (h : heap) (l r : list nat) : nat :=
    length (filter (fun e => touches h e l && touches h e r) (g_edges h)).
End CutSpec.
