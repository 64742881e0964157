(** Model of Grid.move_from_mean_point on a grid and of the explosion of a grid file
    (case_005_explode_bunny of test.py). *)

From Coq Require Import ZArith Reals Ascii String Bool List.
From Verif Require Import Py Heap GridModel GridIO Geom Programs.
From Verif Require Convert.
Import ListNotations.
Open Scope list_scope.

Section Explode.
  Context {F : FloatOps}.
  Variables (real : val -> R) (near : R -> val).

  (** Grid.move_from_mean_point, grid.py:1095-1122, on the objects: the computation is that of
      Convert.v over real numbers.  Simplification: the results are rounded once, when they are
      put back.  Node.RoundedCoords is not changed by the code. *)
  Definition explode_grid (k : R) : M unit :=
    h <- gets (fun h => h) ;;
    q <- lift (Convert.move_from_mean_point (fun n => vect_of real (n_p h n)) (g_nodes h) (map (z_nodes h) (g_zones h)) k) ;;
    modify (fun h => set_n_p h (fun n =>
      if in_dec Nat.eq_dec n (flat_map (z_nodes h) (g_zones h)) then pt_of near (q n) else n_p h n)).

  (** `g.load(text, is_merge_same_nodes=False); g.move_from_mean_point(k); g.store(out)`,
      test.py:94-96: the text of the stored file. *)
  Definition explode_file (k : R) (text : str) : M str :=
    load false text ;;;
    explode_grid k ;;;
    h <- gets (fun h => h) ;;
    lift (store h).

  (** case_005_explode_bunny, test.py:80-96: the texts of both stored files; the grid is new, the
      constants 5 and 0.25 are parameters. *)
  Definition explode_case (fns : list (heap -> nat -> val)) (levels : nat) (name : str) (k : R) (text : str) : M (str * str) :=
    modify new_grid ;;;
    load true text ;;;
    decompose_hierarchical fns levels (Some name) [] ;;;
    h <- gets (fun h => h) ;;
    t1 <- lift (store h) ;;
    t2 <- explode_file k t1 ;;
    ret (t1, t2).
End Explode.
