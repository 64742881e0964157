(** Model of the program ansys_to_crystal.py as a whole: three files of ANSYS are filtered,
    merged and written as one grid file with data on faces.

    [fl] is float(.) over real numbers, [sfmt] is str(.) of a number, [fm] is '%f' % (.). *)

From Coq Require Import ZArith Reals Ascii String Bool List.
From Verif Require Import Py Heap GridModel Mpi GridIO Geom Convert Ansys.
Import ListNotations.
Open Scope list_scope.

(** The variables to be extracted, ansys_to_crystal.py:27, 30 and 33. *)
Definition fensap_variables_to_extract : list str :=
  map lit ["X"; "Y"; "Z"; "Static temperature"; "SF1"; "SF2"; "SF3"; "Classical heat flux"]%string.
Definition drop3d_variables_to_extract : list str := map lit ["X"; "Y"; "Z"; "Collection efficiency-Droplet"]%string.
Definition adiabatic_variables_to_extract : list str := map lit ["X"; "Y"; "Z"; "Static temperature"]%string.

(** A file is read line by line and another one is written (the beginning of
    ansys_to_crystal.py:233-275, 280-328 and 390-454): from text to text. *)
Definition stage (f : list str -> res (list str)) (text : str) : res str :=
  do o <- f (file_lines text); Ok (List.concat o).

Section AnsysMain.
  Context {F : FloatOps}.
  Variables (fl : str -> res R) (sfmt fm : R -> str).

  (** ansys_to_crystal.py:541-571 and 472-474: the text of the file written by Export; [zones]
      is the second argument of the program, ansys_to_crystal.py:504.  Simplification: the files of
      the phases are texts that are passed on (no file is missing, ansys_to_crystal.py:531-539);
      the messages are not modelled. *)
  Definition exported_text (zones : str) (t v cp : R) (reversed : bool) (fensap drop3d adiabatic : str) : res str :=
    let zs := split_on comma zones in
    do f1 <- stage (filter_zones zs 0 0) fensap;
    do d1 <- stage (filter_zones zs 0 0) drop3d;
    do a1 <- stage (filter_zones zs 0 0) adiabatic;
    do f2 <- stage (filter_variables fensap_variables_to_extract None 0 0) f1;
    do d2 <- stage (filter_variables drop3d_variables_to_extract None 0 0) d1;
    do a2 <- stage (filter_variables adiabatic_variables_to_extract None 0 0) a1;
    do m <- merge_files 0 0 (file_lines f2) (file_lines d2) (file_lines a2);
    do h <- stage (calculate_htc fl sfmt t v cp 0 0) (List.concat m);
    do g <- load_nodes_data fl reversed 0 0 [] (file_lines h);
    Ok (List.concat (export fm g)).

  (** The whole program, ansys_to_crystal.py:483-575, with data_from_nodes_to_faces,
      ansys_to_crystal.py:459-479: the text of the last file. *)
  Definition ansys_to_crystal (zones : str) (t v cp : R) (reversed : bool) (fensap drop3d adiabatic : str) : M str :=
    text <- lift (exported_text zones t v cp reversed fensap drop3d adiabatic) ;;
    modify new_grid ;;;
    load true text ;;;
    h <- gets (fun h => h) ;;
    lift (store h).
End AnsysMain.
