(** Model of refine.py: rebuilding of faces by given points.

    The module imports gsu.gsu (refine.py:9), which is not in the repository, so the
    program cannot be started as it is; the functions are modelled with the class Grid of
    gsu/grid.py.  Geometry on positions is a parameter: [cls] is
    Triangle.point_in_triangle (Cross.v over real numbers), [flat] says that the area of a
    triangle is zero, [same] is Vect.__eq__, [close] is the test by math.isclose at
    refine.py:260-262, [srt] is list.sort() of points (a parameter, since Vect.__lt__ is not
    an order).  Search of intersections is in Cross.v; reading, writing and printing at
    refine.py:224-235, 267-269 are left out (load and store are in GridIO.v). *)

From Coq Require Import ZArith NArith Bool List.
From Verif Require Import Py Heap GridModel Atomic.
Import ListNotations.
Open Scope list_scope.
Open Scope nat_scope.

Section Refine.
  Context {F : FloatOps}.

  (** Triangle made by Face.get_triangle, face.py:137-152: three points and BackRef (get_triangle
      always sets BackRef, so `assert (face)` at refine.py:125 passes). *)
  Record tri : Type := MkTri { t_a : pt; t_b : pt; t_c : pt; t_back : nat }.

  (** The geometry used by refine.py, see above. *)
  Record geometry : Type := MkGeo {
    cls : tri -> pt -> nat;
    flat : pt -> pt -> pt -> bool;
    same : pt -> pt -> bool;
    close : pt -> pt -> bool;
    srt : list pt -> list pt
  }.

  Variable G : geometry.

  (** Face.get_triangle, face.py:137-152, for a face with three nodes. *)
  Definition get_triangle (h : heap) (f : nat) : res tri :=
    match f_nodes h f with
    | a :: b :: c :: _ => Ok (MkTri (n_p h a) (n_p h b) (n_p h c) f)
    | _ => Raise EIndexError
    end.

  (** point_on_edge_of_triangle, refine.py:34-56 (the first component of the result). *)
  Definition point_on_edge (p : pt) (t : tri) : pt * pt :=
    if flat G (t_a t) (t_b t) p then (t_a t, t_b t)
    else if flat G p (t_b t) (t_c t) then (t_b t, t_c t)
    else (t_c t, t_a t).

  (** The condition on an edge at refine.py:153-154, 182-183. *)
  Definition joins (h : heap) (u v : pt) (e : nat) : res bool :=
    match e_nodes h e with
    | a :: b :: _ => Ok ((same G (n_p h a) u && same G (n_p h b) v) || (same G (n_p h b) u && same G (n_p h a) v))
    | _ => Raise EIndexError
    end.

  (** `[x for x in l if p(x)]`. *)
  Fixpoint rfilter {A} (p : A -> res bool) (l : list A) : res (list A) :=
    match l with
    | [] => Ok []
    | x :: r => do b <- p x; do s <- rfilter p r; Ok (if b then x :: s else s)
    end.

  (** `ed = [ed for ed in face.Edges if ...][0]`, refine.py:153-154, 182-183. *)
  Definition edge_between (face : nat) (u v : pt) : M nat := fun h =>
    (do es <- rfilter (joins h u v) (f_edges h face);
     match es with e :: _ => Ok e | [] => Raise EIndexError end, h).

  (** The body of the loop of refine, refine.py:118-220.  Triangles with two points that are
      not on one edge and with more points are left as they are (186-220). *)
  Definition refine_item (x : tri * list pt) : M unit :=
    let '(t, pts) := x in
    match filter (fun p => negb (cls G t p =? 0) && negb (cls G t p =? 1)) pts with
    | [p] =>
        if cls G t p =? 2 then
          let '(u, v) := point_on_edge p t in
          e <- edge_between (t_back t) u v ;;
          fs <- gets (fun h => e_faces h e) ;;
          if length fs =? 2 then cut_edge e p ;;; ret tt else cut_single_edge e p ;;; ret tt
        else divide_face (t_back t) p
    | [p; q] =>
        if (cls G t p =? 2) && (cls G t q =? 2) then
          let '(u, v) := point_on_edge p t in
          let '(u', v') := point_on_edge q t in
          if same G u u' && same G v v' then
            e <- edge_between (t_back t) u v ;;
            cut_edge_with_two_nodes e p q ;;; ret tt
          else ret tt
        else ret tt
    | _ => ret tt
    end.

  (** refine, refine.py:101-220 (in_point_class, 60-76, only chooses between empty branches). *)
  Definition refine (l : list (tri * list pt)) : M unit := for_each l refine_item.

  (* ---------------------------------------------------------------- *)
  (** ** Preparation of the list of intersections *)

  (** An element [triangle, list of points] of the result of
      TrianglesCloud.intersection_with_triangles_cloud: identity of the triangle and identity
      of the list.  Both elements of a pair of triangles hold the same list object
      (triangles_cloud.py:198-201), so lists are kept in a store. *)
  Definition entry : Type := (nat * nat)%type.
  Definition lists : Type := nat -> list pt.

  (** Assignment to a list object. *)
  Definition put_list (s : lists) (k : nat) (v : list pt) : lists := fun i => if Nat.eqb i k then v else s i.

  (** `res_intersect.sort(key=id)`, refine.py:244: a stable sort. *)
  Fixpoint insert_entry (x : entry) (l : list entry) : list entry :=
    match l with
    | [] => [x]
    | y :: r => if fst x <=? fst y then x :: l else y :: insert_entry x r
    end.
  Definition sort_entries (l : list entry) : list entry := fold_right insert_entry [] l.

  (** The loop at refine.py:250-254: [last] is the last element of the new list, the others are
      in [done]; the triangle of an element equals that of the element before it iff it equals
      that of [last].  `+=` extends the list object. *)
  Fixpoint merge_loop (done : list entry) (last : entry) (l : list entry) (s : lists) : list entry * lists :=
    match l with
    | [] => (done ++ [last], s)
    | x :: r =>
        if negb (Nat.eqb (fst x) (fst last)) then merge_loop (done ++ [last]) x r s
        else merge_loop done last r (put_list s (snd last) (s (snd last) ++ s (snd x)))
    end.

  (** refine.py:259-262 after the sort: the first point and the points that are not close to
      their predecessors. *)
  Fixpoint far_after (prev : pt) (l : list pt) : list pt :=
    match l with
    | [] => []
    | x :: r => if close G x prev then far_after x r else x :: far_after x r
    end.
  Definition drop_close (l : list pt) : res (list pt) :=
    match l with [] => Raise EIndexError | x :: r => Ok (x :: far_after x r) end.

  (** The loop at refine.py:257-262: `j[1].sort()` sorts the list object in place, then the
      element gets a new list. *)
  Fixpoint thin_loop (l : list entry) (s : lists) : res (list (nat * list pt)) :=
    match l with
    | [] => Ok []
    | x :: r =>
        let v := srt G (s (snd x)) in
        do k <- drop_close v;
        do rest <- thin_loop r (put_list s (snd x) v);
        Ok ((fst x, k) :: rest)
    end.

  (** refine.py:242-262; `res_intersect[0]` raises if there are no intersections. *)
  Definition prepare (l : list entry) (s : lists) : res (list (nat * list pt)) :=
    match sort_entries l with
    | [] => Raise EIndexError
    | x :: r => let '(m, s') := merge_loop [] x r s in thin_loop m s'
    end.

  (** refine_grid, refine.py:242-265, after the search: [ts] are the triangles by identity. *)
  Definition refine_found (ts : nat -> tri) (l : list entry) (s : lists) : M unit :=
    m <- lift (prepare l s) ;;
    refine (map (fun x => (ts (fst x), snd x)) m).
End Refine.
