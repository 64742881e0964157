(** Grid files with the same contents (C120). *)

From Coq Require Import ZArith Ascii String Bool List.
From Verif Require Import Py Heap GridModel Mpi GridIO FileSpec.
Import ListNotations.
Open Scope list_scope.

Section ContentsSpec.
  Context {F : FloatOps}.

  (** A piece of a grid file: a line with a comment, the title or the variables, or a zone: six lines of the
      head, the lines of numbers (coordinates and values) and the lines of corners. *)
  Inductive piece := PLine (l : str) | PZone (l l1 l2 l3 l4 l5 : str) (nums conns : list str).
  Definition lines_of_piece (p : piece) : list str :=
    match p with PLine l => [l] | PZone l l1 l2 l3 l4 l5 nums conns => l :: l1 :: l2 :: l3 :: l4 :: l5 :: nums ++ conns end.

  (** The pieces are a well-formed file with the contents [evs]; no zone reaches past the end of the file. *)
  Inductive pieces : list str -> list piece -> list event -> Prop :=
  | ps_end : forall vars, pieces vars [] []
  | ps_comment : forall vars l ps evs, hd_error l = Some hash -> pieces vars ps evs -> pieces vars (PLine l :: ps) evs
  | ps_title : forall vars l ps s evs, title_line l s -> pieces vars ps evs -> pieces vars (PLine l :: ps) (ETitle s :: evs)
  | ps_vars : forall vars l ps vars' evs, vars_line l vars' -> pieces vars' ps evs -> pieces vars (PLine l :: ps) evs
  | ps_zone : forall vars l l1 l2 l3 l4 l5 nums conns ps zr evs, zone_line l (zr_name zr) ->
      zone_block vars (l1 :: l2 :: l3 :: l4 :: l5 :: nums ++ conns) zr [] ->
      length nums = 3 + length (zr_vars zr) -> length conns = length (zr_conn zr) ->
      pieces vars ps evs -> pieces vars (PZone l l1 l2 l3 l4 l5 nums conns :: ps) (EZone zr :: evs).

  (** Two lines have the same numbers (the words may be written and set apart in another way). *)
  Definition same_floats (l l' : str) : Prop := Forall2 (fun s s' => prs s = prs s') (split_ws l) (split_ws l').
  Definition same_ints (l l' : str) : Prop := Forall2 (fun s s' => py_int s = py_int s') (split_ws l) (split_ws l').

  (** The second file is the first one with more comments between pieces and with its numbers written in
      another way. *)
  Inductive rewritten : list piece -> list piece -> Prop :=
  | rw_end : rewritten [] []
  | rw_line : forall l ps ps', rewritten ps ps' -> rewritten (PLine l :: ps) (PLine l :: ps')
  | rw_comment : forall l ps ps', hd_error l = Some hash -> rewritten ps ps' -> rewritten ps (PLine l :: ps')
  | rw_zone : forall l l1 l2 l3 l4 l5 nums nums' conns conns' ps ps', Forall2 same_floats nums nums' -> Forall2 same_ints conns conns' ->
      rewritten ps ps' -> rewritten (PZone l l1 l2 l3 l4 l5 nums conns :: ps) (PZone l l1 l2 l3 l4 l5 nums' conns' :: ps').
End ContentsSpec.
