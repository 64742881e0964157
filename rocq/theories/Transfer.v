(** Models of the programs interpolate.py and lazurit_add_beta_from_ansys.py as wholes: two grid
    files are loaded, data of faces of one grid are copied to the nearest faces of the other, and
    the second grid is stored.

    The two grids are two Grid objects without common nodes, edges, faces or zones, so each has its
    own heap.  The data are only copied (opaque numbers); [real] is the real number that a
    float stands for, distances are exact. *)

From Coq Require Import ZArith Reals Ascii String Bool List.
From Verif Require Import Py Heap GridModel Mpi GridIO Geom Drops Programs Convert.
Import ListNotations.
Open Scope list_scope.

Section Transfer.
  Context {F : FloatOps}.
  Variable real : val -> R.

  (** `grid = gsu.Grid(); grid.load(name)`, interpolate.py:96-103 and
      lazurit_add_beta_from_ansys.py:67-70; [h] is the state of the memory before. *)
  Definition load_grid (text : str) (h : heap) : res heap :=
    match load true text (new_grid h) with (Ok _, h1) => Ok h1 | (Raise e, _) => Raise e end.

  (** Face.__setitem__, face.py:53-61. *)
  Definition face_put (h : heap) (f : nat) (k : str) (v : val) : heap :=
    set_f_data h (upd (f_data h) f (dset str_dec (f_data h f) k v)).

  (** dual_mesh and all_coordinates_of_aux_nodes, interpolate.py:27-56. *)
  Definition dual_points (h : heap) : list vect := map (fun f => aux_node (dface_of real h f)) (g_faces h).

  (** The loop of face_centered_interpolation, interpolate.py:73-77; [query] stands for
      KDTree(points).query(p)[1] of scipy. *)
  Fixpoint interpolate_faces (query : list vect -> vect -> nat) (hs : heap) (fs : list nat) (ht : heap) : res heap :=
    match fs with
    | [] => Ok ht
    | f :: r =>
        match nth_error (g_faces hs) (query (dual_points hs) (aux_node (dface_of real ht f))) with
        | None => Raise EIndexError
        | Some g => interpolate_faces query hs r (face_put (face_put ht f kT (face_get hs g kT)) f kHw (face_get hs g kHw))
        end
    end.

  (** The program interpolate.py:80-124: the text of the stored file.  Simplification: the
      arguments are valid (interpolate.py:91-96). *)
  Definition interpolate_program (query : list vect -> vect -> nat) (source target : str) (h1 h2 : heap) : res str :=
    do hs <- load_grid source h1;
    do ht <- load_grid target h2;
    do hr <- interpolate_faces query hs (g_faces ht) ht;
    store hr.

  (** The pairs of centers and Beta, lazurit_add_beta_from_ansys.py:73. *)
  Definition adata (h : heap) : list (vect * val) := map (fun f => (get_center (dface_of real h f), face_get h f kBeta)) (g_faces h).

  (** The loop of lazurit_add_beta_from_ansys.py:74-77. *)
  Fixpoint add_beta_faces (ad : list (vect * val)) (fs : list nat) (hl : heap) : res heap :=
    match fs with
    | [] => Ok hl
    | f :: r =>
        let c := get_center (dface_of real hl f) in
        do i <- argmin (map (fun a => mod2 (vsub c (fst a))) ad);
        match nth_error ad i with
        | None => Raise EIndexError
        | Some a => add_beta_faces ad r (face_put hl f kBeta (snd a))
        end
    end.

  (** The program lazurit_add_beta_from_ansys.py:41-80: the text of the stored file.
      Simplification: both files exist; the messages are not modelled. *)
  Definition add_beta_program (lazurit ansys : str) (h1 h2 : heap) : res str :=
    do hl <- load_grid lazurit h1;
    do ha <- load_grid ansys h2;
    do hr <- add_beta_faces (adata ha) (g_faces hl) hl;
    store hr.
End Transfer.
