(** Model of crysgsu/utils.py (lines 14-147). *)

From Coq Require Import ZArith NArith Ascii String Bool List.
From Verif Require Import Py.
Import ListNotations.
Open Scope list_scope.

(** Arbitrarily nested Python lists with non-list leaves of type [A]. *)
Inductive nested (A : Type) : Type :=
| Leaf (a : A)
| Nest (l : list (nested A)).
Arguments Leaf {A} a.
Arguments Nest {A} l.

(** One element of the loop of `flatten`, utils.py:24-28: a list is flattened
    recursively, another value is appended. *)
Fixpoint flatten_elem {A} (e : nested A) : list (nested A) :=
  match e with
  | Leaf a => [Leaf a]
  | Nest l => (fix go (l : list (nested A)) : list (nested A) :=
                 match l with [] => [] | x :: r => flatten_elem x ++ go r end) l
  end.

(** flatten(ar), utils.py:14-30. *)
Fixpoint flatten {A} (ar : list (nested A)) : list (nested A) :=
  match ar with
  | [] => []
  | e :: r => flatten_elem e ++ flatten r
  end.

(** An underscore followed by exactly twelve ASCII digits. *)
Definition underscore_12_digits (s : str) : bool :=
  match s with
  | c :: r => Ascii.eqb c "_"%char && (length r =? 12)%nat && forallb is_digit r
  | [] => false
  end.

(** has_filename_timestamp(s), utils.py:35-43.  `re.search` of '_\d{12}$': the
    match ends at the end of the string or just before one final line feed. *)
Definition has_filename_timestamp (s : str) : bool :=
  (13 <=? length s)%nat && underscore_12_digits (skipn (length s - 13) s)
  || match rev s with
     | c :: r => Ascii.eqb c nl && (13 <=? length r)%nat
                 && underscore_12_digits (skipn (length r - 13) (rev r))
     | [] => false
     end.

(** get_filename_and_timestamp_pair(s), utils.py:48-61. *)
Definition get_filename_and_timestamp_pair (s : str) : str * str :=
  if has_filename_timestamp s
  then (py_to s (-13), py_from s (-12))
  else (s, lit "000000000000").

(** dummy_split_filename(s), utils.py:66-91.  `int` of a string accepted by
    `isdigit` raises ValueError for superscript digits. *)
Definition dummy_split_filename (s : str) : res (str * option Z * option Z * str) :=
  let st := py_to s (-23) in
  let m := py_slice s (-22) (-17) in
  let t := py_slice s (-16) (-4) in
  let e := py_from s (-3) in
  do md <- (if isdigit m then do v <- py_int m; Ok (Some v) else Ok None);
  do td <- (if isdigit t then do v <- py_int t; Ok (Some v) else Ok None);
  Ok (st, md, td, e).

(** Common body of the two checks, utils.py:105-107 and 121-123. *)
Definition is_filename_correct (ext : str) (fn stem : str) : res bool :=
  do q <- dummy_split_filename fn;
  match q with
  | (s, m, t, e) =>
      Ok (str_eqb s stem
          && match m with Some _ => true | None => false end
          && match t with Some _ => true | None => false end
          && str_eqb e ext)
  end.

(** is_filename_correct_crys_cry_file(fn, stem), utils.py:96-107. *)
Definition is_filename_correct_crys_cry_file : str -> str -> res bool :=
  is_filename_correct (lit "cry").

(** is_filename_correct_crys_txt_file(fn, stem), utils.py:112-123. *)
Definition is_filename_correct_crys_txt_file : str -> str -> res bool :=
  is_filename_correct (lit "txt").

(** group_txt_files_by_timestamps(fs), utils.py:128-147: loop body. *)
Definition group_step (d : dict str (list str)) (f : str) : dict str (list str) :=
  let tm := py_slice f (-16) (-4) in
  match dget str_dec d tm with
  | Some v => dset str_dec d tm (v ++ [f])
  | None => dset str_dec d tm [f]
  end.

(** group_txt_files_by_timestamps(fs), utils.py:128-147. *)
Definition group_txt_files_by_timestamps (fs : list str) : dict str (list str) :=
  fold_left group_step fs [].

(** Name of the file of zone number [zi] written by Grid.store_mpi,
    gsu/grid.py:685. *)
Definition mpi_filename (base : str) (zi : nat) (ts sf : str) : str :=
  base ++ lit "_" ++ pad0 5 (nat_str zi) ++ lit "_" ++ ts ++ sf.
