(** Model of the programs which print the numbers of a grid before and after one transformation
    (case_015 - case_020 of test.py). *)

From Coq Require Import ZArith Ascii String Bool List.
From Verif Require Import Py Heap GridModel GridIO Atomic.
Import ListNotations.
Open Scope list_scope.

Section GloIds.
  Context {F : FloatOps}.

  (** The three printed lists `[f.GloId for f in g.Faces]`, `[f.GloId for f in g.Edges]`,
      `[f.GloId for f in g.Nodes]`, test.py:167-172 (and after each transformation). *)
  Definition ids (h : heap) : list Z * list Z * list Z :=
    (map (f_glo h) (g_faces h), map (e_glo h) (g_edges h), map (n_glo h) (g_nodes h)).

  (** `g.Faces[0]`, test.py:174, 198: IndexError if there are no faces. *)
  Definition first_face : M nat := fs <- gets g_faces ;; item0 fs.

  (** The loop `while w`, test.py:222-230, 252-260, 282-290, 312-322, 330-340, from the place of the face
      [fs] begins with: the first face whose first edge has [k] faces is looked for,
      [act] is called with this face and its first edge.  Simplification: the list is read once (it is
      changed only by [act], after which the loop ends); the loop is a recursion on
      the rest of the list, `g.Faces[n]` behind its end is IndexError. *)
  Fixpoint first_of (k : nat) (act : nat -> nat -> M unit) (fs : list nat) : M unit :=
    match fs with
    | [] => raise EIndexError
    | f :: r =>
        es <- gets (fun h => f_edges h f) ;;
        e <- item0 es ;;
        n <- gets (fun h => length (e_faces h e)) ;;
        if Nat.eqb n k then act f e else first_of k act r
    end.

  Definition search (k : nat) (act : nat -> nat -> M unit) : M unit :=
    fs <- gets g_faces ;; first_of k act fs.

  (** `face.get_triangle().centroid()`, face.py:137-151, triangle.py:103-110, where [cen] is the
      centroid of three points.  (A face with fewer than three nodes gives IndexError in the code; such
      faces are not consistent.) *)
  Definition centroid (cen : pt -> pt -> pt -> pt) (h : heap) (f : nat) : pt :=
    match f_nodes h f with
    | a :: b :: c :: _ => cen (n_p h a) (n_p h b) (n_p h c)
    | _ => (val0, val0, val0)
    end.

  (** `g = gsu.Grid(); g.load(...); print ids; act; print ids`, the common part of
      test.py:163-347. *)
  Definition ids_case (act : M unit) (text : str) : M (list Z * list Z * list Z * (list Z * list Z * list Z)) :=
    modify new_grid ;;;
    load true text ;;;
    before <- gets ids ;;
    act ;;;
    after <- gets ids ;;
    ret (before, after).

  (** case_015_GloId_in_grid_for_divide_face, test.py:163-182. *)
  Definition divide_case (cen : pt -> pt -> pt -> pt) : str -> M _ :=
    ids_case (f <- first_face ;; p <- gets (fun h => centroid cen h f) ;; divide_face f p).

  (** case_016_GloId_in_grid_for_collapse_face, test.py:187-206. *)
  Definition flip_case : str -> M _ :=
    ids_case (f <- first_face ;; collapse_face f ;;; ret tt).

  (** case_017_GloId_in_grid_for_cut_edge, test.py:211-237. *)
  Definition cut_case (cen : pt -> pt -> pt -> pt) : str -> M _ :=
    ids_case (search 2 (fun f e => p <- gets (fun h => centroid cen h f) ;; cut_edge e p ;;; ret tt)).

  (** case_018_GloId_in_grid_for_collapse_edge, test.py:241-267. *)
  Definition collapse_case : str -> M _ :=
    ids_case (search 2 (fun f e => collapse_edge e ;;; ret tt)).

  (** case_019_GloId_in_grid_for_cut_single_edge, test.py:271-297. *)
  Definition single_case (cen : pt -> pt -> pt -> pt) : str -> M _ :=
    ids_case (search 1 (fun f e => p <- gets (fun h => centroid cen h f) ;; cut_single_edge e p ;;; ret tt)).

  (** One loop of case_020, test.py:312-322 ([k] = 1) and 330-340 ([k] = 2); [lo] and [hi] are
      the subtraction and the addition of the vector (0.01, 0.01, 0.01). *)
  Definition two_step (cen : pt -> pt -> pt -> pt) (lo hi : pt -> pt) (k : nat) : M unit :=
    search k (fun f e => p <- gets (fun h => centroid cen h f) ;; cut_edge_with_two_nodes e (lo p) (hi p) ;;; ret tt).

  (** case_020_GloId_in_grid_for_cut_edge_with_two_nodes, test.py:301-347. *)
  Definition two_case (cen : pt -> pt -> pt -> pt) (lo hi : pt -> pt) (text : str)
      : M (list Z * list Z * list Z * (list Z * list Z * list Z) * (list Z * list Z * list Z)) :=
    modify new_grid ;;;
    load true text ;;;
    before <- gets ids ;;
    two_step cen lo hi 1 ;;;
    after <- gets ids ;;
    two_step cen lo hi 2 ;;;
    later <- gets ids ;;
    ret (before, after, later).
End GloIds.
