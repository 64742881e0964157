(** Texts with different line ends (C119). *)

From Coq Require Import Ascii List.
From Verif Require Import Py.
Import ListNotations.
Open Scope list_scope.

(** [u] is the text [t], which has only LF as line ends, written with other line ends: each LF of [t] is
    LF, CR LF or CR in [u], and a CR is not followed by an LF of the next line. *)
Inductive other_ends : str -> str -> Prop :=
| oe_nil : other_ends [] []
| oe_char : forall c t u, c <> cr -> c <> nl -> other_ends t u -> other_ends (c :: t) (c :: u)
| oe_lf : forall t u, other_ends t u -> other_ends (nl :: t) (nl :: u)
| oe_crlf : forall t u, other_ends t u -> other_ends (nl :: t) (cr :: nl :: u)
| oe_cr : forall t u, other_ends t u -> hd_error u <> Some nl -> other_ends (nl :: t) (cr :: u).

(** The text [t] as an editor of another system writes it: every LF becomes [e]. *)
Definition with_ends (e t : str) : str := flat_map (fun c => if Ascii.eqb c nl then e else [c]) t.

(** Two directories with the same names in the same order and the same texts up to line ends. *)
Definition same_dir (d d' : list (str * str)) : Prop :=
  Forall2 (fun a b => fst a = fst b /\ other_ends (snd a) (snd b)) d d'.
