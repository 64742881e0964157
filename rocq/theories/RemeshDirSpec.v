(** Vocabulary of C131: the program remesh.py over files. *)

From Coq Require Import Ascii String List.
From Verif Require Import Py TextLemmas Programs RemeshDir.
Import ListNotations.
Open Scope list_scope.

(** The file of the directory with the name. *)
Definition file_in (dir n : str) : path := (fst (parts dir), snd (parts dir) ++ [n]).

(** The name without '_r_': str.replace of Python. *)
Definition renamed (n : str) : str := replace_all (lit "_r_") (lit "_") n.

(** The grids of a directory. *)
Definition grids_of (listing : list str) : list str := filter (ends_with (lit ".dat")) listing.
