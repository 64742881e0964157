(** split and merge run on directories of files: crysgsu/split.py, crysgsu/merge.py. *)

From Coq Require Import ZArith Ascii String Bool List.
From Verif Require Import Py Heap GridModel Mpi GridIO Utils Driver.
Import ListNotations.
Open Scope list_scope.

Section Stamps.
  Context {F : FloatOps}.

  (** split, split.py:16-134, with a directory for the *.cry files and without an output grid file: [stem] is
      the name of the grid file without directory and suffix [sf]; the result are the names (in this
      directory) and texts of the files.  (Simplification: the report.txt with the time spent is not
      in the result.) *)
  Definition split_run (stem : str) (grid : option str) (sf strat : str) (fixed : list str) (rf : val) : M (list (str * str)) :=
    let '(nm, ts) := get_filename_and_timestamp_pair stem in
    match grid with
    | None => raise EException
    | Some text =>
        if str_eqb sf (lit ".dat") then
          split_decompose text strat fixed rf ;;;
          h <- gets (fun h => h) ;;
          lift (store_mpi nm ts (lit ".cry") h)
        else raise EException
    end.

  (** merge, merge.py:17-64: [stem] is the name of the grid file without directory and suffix, [d] the source
      directory.  (Simplification: the csv files are in Convert.v, the report is left out.) *)
  Definition merge_run (stem : str) (grid : option str) (d : dir) : M (list (str * str)) :=
    let '(nm, _) := get_filename_and_timestamp_pair stem in
    match grid with
    | None => raise EException
    | Some text => merge nm text d
    end.
End Stamps.
