(** Model of the drivers: Grid.load_faces_calc_data (grid.py:1141-1163), merge
    (merge.py:17-66) and split (split.py:16-134). *)

From Coq Require Import ZArith NArith Ascii String Bool List.
From Verif Require Import Py Heap GridModel Mpi GridIO Utils.
Import ListNotations.
Open Scope list_scope.
Open Scope nat_scope.

Section Driver.
  Context {F : FloatOps}.

  (* ---------------------------------------------------------------- *)
  (** ** Calculated data *)

  (** The names in the first line, grid.py:1151. *)
  Definition calc_vars (line : str) : res (list str) :=
    do s <- after_eq line;
    Ok (skipn 1 (split_ws (remove_char comma (remove_char dquote s)))).

  (** One line of the loop, grid.py:1155-1160. *)
  Definition calc_line (vars : list str) (line : str) : M unit :=
    let ss := split_ws line in
    s0 <- lift (py_get ss 0) ;;
    glo_id <- lift (py_int s0) ;;
    values <- lift (rmap (fun s => match prs s with Some v => Ok v | None => Raise EValueError end)
                         (skipn 1 ss)) ;;
    fs <- gets g_faces ;;
    face <- lift (py_get fs glo_id) ;;
    modify (fun h => set_f_data h (upd (f_data h) face (dict_of str_dec (combine vars values)))).

  (** Grid.load_faces_calc_data, grid.py:1141-1163, on the text of the file. *)
  Definition load_faces_calc_data (text : str) : M unit :=
    let '(line, ls) := readline (file_lines text) in
    vars <- lift (calc_vars line) ;;
    for_each ls (calc_line vars).

  (* ---------------------------------------------------------------- *)
  (** ** merge *)

  (** merge.py:60-64 for one timestamp: the text of the output file; [txts] are the
      texts of the files of this timestamp. *)
  Definition merge_one (grid_text : str) (txts : list str) : M str :=
    load true grid_text ;;;
    for_each txts load_faces_calc_data ;;;
    h <- gets (fun h => h) ;;
    lift (store h).

  (** A directory: names and texts of its files, in the order of os.listdir. *)
  Definition dir := list (str * str).

  (** Opening a file of the directory.  (Simplification: a missing file raises the
      general exception; it cannot happen in merge.) *)
  Definition open_in (d : dir) (name : str) : res str :=
    match dget str_dec d name with Some t => Ok t | None => Raise EException end.

  (** The loop over timestamps, merge.py:59-64; returns names and texts of the output
      files.  [nm] is the name of the grid file without extension and timestamp. *)
  Fixpoint merge_loop (nm grid_text : str) (d : dir) (gmf : dict str (list str)) : M (list (str * str)) :=
    match gmf with
    | [] => ret []
    | (tm, fs) :: r =>
        txts <- lift (rmap (open_in d) fs) ;;
        out <- merge_one grid_text txts ;;
        rest <- merge_loop nm grid_text d r ;;
        ret ((nm ++ lit "_r_" ++ tm ++ lit ".dat", out) :: rest)
    end.

  (** `[fn for fn in all_files if is_filename_correct_crys_txt_file(fn, nm)]`,
      merge.py:46. *)
  Fixpoint match_files (nm : str) (fns : list str) : res (list str) :=
    match fns with
    | [] => Ok []
    | fn :: r =>
        do b <- is_filename_correct_crys_txt_file fn nm;
        do l <- match_files nm r;
        Ok (if b then fn :: l else l)
    end.

  (** merge, merge.py:17-66 (without the csv files and the report). *)
  Definition merge (nm grid_text : str) (d : dir) : M (list (str * str)) :=
    ms <- lift (match_files nm (map fst d)) ;;
    modify new_grid ;;;
    merge_loop nm grid_text d (group_txt_files_by_timestamps ms).

  (* ---------------------------------------------------------------- *)
  (** ** split *)

  (** split.py:66. *)
  Definition rf_name : str := lit "RecoveryFactor".

  (** split.py:67-69. *)
  Definition complete_rf (rf : val) : M unit :=
    fs <- gets g_faces ;;
    for_each fs (fun f => modify (fun h =>
      match dget str_dec (f_data h f) rf_name with
      | Some _ => h
      | None => set_f_data h (upd (f_data h) f (dset str_dec (f_data h f) rf_name rf))
      end)).

  (** The two kinds of strategies. *)
  Inductive strategy := Hier (n : Z) | Exact (n : Z).

  (** split.py:72-78. *)
  Definition parse_strategy (s : str) : res strategy :=
    do c <- py_get s 0;
    if Ascii.eqb c "h"%char then do n <- py_int (skipn 1 s); Ok (Hier n)
    else if Ascii.eqb c "n"%char then do n <- py_int (skipn 1 s); Ok (Exact n)
    else Raise EException.

  (** domains_count == 1, split.py:81 (2 ** n is 1 only for n = 0). *)
  Definition one_domain (st : strategy) : bool :=
    match st with Hier n => (n =? 0)%Z | Exact n => (n =? 1)%Z end.

  (** split.py:81-113. *)
  Definition decompose_by (st : strategy) (fixed : list str) : M unit :=
    if one_domain st && match fixed with [] => true | _ => false end then decompose_mono None
    else match st with
    | Hier n => decompose_hierarchical axis_signs (Z.to_nat (n + 1)) None fixed
    | Exact n =>
        if (n =? 0)%Z then raise EException
        else if (n <=? Z.of_nat (length fixed))%Z then raise EException
        else decompose_farhat (Z.to_nat (n - Z.of_nat (length fixed))) None fixed
    end.

  (** split.py:57-62: every fixed zone must exist. *)
  Definition check_fixed (fixed : list str) : M unit :=
    names <- gets (fun h => map (z_name h) (g_zones h)) ;;
    for_each fixed (fun fz => raise_if (negb (mem (str_eqb fz) names))).

  (** split.py:54-113: the grid after decomposition. *)
  Definition split_decompose (grid_text strat : str) (fixed : list str) (rf : val) : M unit :=
    modify new_grid ;;;
    load true grid_text ;;;
    check_fixed fixed ;;;
    complete_rf rf ;;;
    st <- lift (parse_strategy strat) ;;
    decompose_by st fixed.

  (** What is written: one .dat file, or the files for the MPI program. *)
  Inductive target := ToDat | ToMpi | ToNothing.
  Inductive written := WDat (text : str) | WMpi (files : list mpi_file).

  (** split.py:116-126 (without creation of the directory and the report). *)
  Definition write_out (t : target) (h : heap) : res written :=
    match t with
    | ToDat => do s <- store h; Ok (WDat s)
    | ToMpi => do fs <- store_mpi_files h; Ok (WMpi fs)
    | ToNothing => Raise EException
    end.

  (** split, split.py:16-134: [grid] is the text of the grid file ([None]: no such
      file), [sf] its suffix. *)
  Definition split (grid : option str) (sf strat : str) (fixed : list str) (rf : val) (t : target)
    : M written :=
    match grid with
    | None => raise EException
    | Some text =>
        if str_eqb sf (lit ".dat") then
          split_decompose text strat fixed rf ;;;
          h <- gets (fun h => h) ;;
          lift (write_out t h)
        else raise EException
    end.
End Driver.
