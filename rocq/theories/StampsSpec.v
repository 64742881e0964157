(** Specification vocabulary for the cycle split - solver - merge on directories. *)

From Coq Require Import ZArith Ascii String Bool List.
From Verif Require Import Py Heap Utils CycleSpec SolverSpec.
Import ListNotations.
Open Scope list_scope.
Open Scope nat_scope.

Section StampsSpec.
  Context {F : FloatOps}.

  (** What the solver leaves in the directory [d] for the files [files] of the grid [nm]: for each time
      stamp of [tms] and each file number [i] a text nm_NNNNN_tm.txt computed from the text of this
      file, with the variables [vars tm] and the rows [tabs tm i].  Besides there may be any files
      which are not recognised as such texts; the order of the files is any. *)
  Definition solver_dir (nm : str) (files : list (str * str)) (tms : list str) (vars : str -> list str)
    (tabs : str -> nat -> list (Z * list val)) (d : list (str * str)) : Prop :=
    NoDup (map fst d) /\
    (forall tm, In tm tms -> NoDup (vars tm)) /\
    (forall fn t, In (fn, t) d -> is_filename_correct_crys_txt_file fn nm = Ok false \/
      exists tm i n c, In tm tms /\ nth_error files i = Some (n, c) /\ file_name nm tm (lit ".txt") i fn /\
        solved (vars tm) c t (tabs tm i)) /\
    (forall tm i, In tm tms -> i < length files -> exists fn, file_name nm tm (lit ".txt") i fn /\ In fn (map fst d)).

  (** The name of the merged file of a time stamp. *)
  Definition merged_name (nm tm : str) : str := nm ++ lit "_r_" ++ tm ++ lit ".dat".
End StampsSpec.
