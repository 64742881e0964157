(** Vocabulary of C129: lines that mean nothing to Grid.load. *)

From Coq Require Import Ascii String List.
From Verif Require Import Py Heap GridIO FileSpec AnsysSpec.
Import ListNotations.
Open Scope list_scope.

(** Not a comment, and none of the three keys is in the line. *)
Definition foreign_line (l : str) : Prop :=
  hd_error l <> Some hash /\ forall key, In key ["TITLE="; "VARIABLES="; "ZONE T="]%string -> ~ occurs (lit key) l.

(** Nothing but spaces, tabs and line ends. *)
Definition blank_line (l : str) : Prop := forall c, In c l -> c = " "%char \/ c = "009"%char \/ c = "010"%char \/ c = "013"%char.
