(** The files for the solver written from a decomposed grid: crysgsu/test.py. *)

From Coq Require Import ZArith Ascii String Bool List.
From Verif Require Import Py Heap GridModel Mpi GridIO.
Import ListNotations.
Open Scope list_scope.

Section Solver.
  Context {F : FloatOps}.

  (** `g = gsu.Grid(); g.load(...); g.decompose_...(...); g.store_mpi(base, ts)`, test.py:137-140: [d]
      is the call of the decomposition; the result are the names and texts of the files. *)
  Definition divide_mpi (d : M unit) (text base ts sf : str) : M (list (str * str)) :=
    modify new_grid ;;;
    load true text ;;;
    d ;;;
    h <- gets (fun h => h) ;;
    lift (store_mpi base ts sf h).

  (** case_009_store_mpi, test.py:126-140: [test] is the name of the grid, [text] the text of its file. *)
  Definition mpi_case (test text : str) : M (list (str * str)) :=
    divide_mpi (decompose_hierarchical axis_signs 3 (Some (test ++ lit " hierarchical")) [])
      text (lit "cases/grids/" ++ test ++ lit "_mpi") (lit "000000000100") (lit ".cry").
End Solver.
