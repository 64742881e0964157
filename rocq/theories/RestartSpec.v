(** Specification vocabulary for computations continued from a merged file. *)

From Coq Require Import ZArith Ascii String Bool List.
From Verif Require Import Py Heap GridModel GridIO Utils UtilsSpec Driver CycleSpec SolverSpec Stamps StampsSpec.
Import ListNotations.
Open Scope list_scope.
Open Scope nat_scope.

Section RestartSpec.
  Context {F : FloatOps}.

  (** The corners of all faces of a grid in their order. *)
  Definition triangles (h : heap) : list (list pt) := map (fun f => map (n_p h) (f_nodes h f)) (g_faces h).

  (** The names of the zones of a grid in their order, each with the number of its faces. *)
  Definition zone_table (h : heap) : list (str * nat) := map (fun z => (z_name h z, length (z_faces h z))) (g_zones h).

  (** The name (without suffix) of the merged file of a time stamp, by which the next computation is started. *)
  Definition merged_stem (nm tm : str) : str := nm ++ lit "_r_" ++ tm.

  (** [continued stem text tms stem' text']: beginning with the grid file [stem] with text [text], again
      and again the file is split, the solver answers in a directory, the answers are merged, and the
      merged file of a time stamp is taken as the next grid file.  [tms] are the time stamps taken, [stem'] and
      [text'] the last grid file. *)
  Inductive continued : str -> str -> list str -> str -> str -> Prop :=
  | continued_here : forall stem text, continued stem text [] stem text
  | continued_more : forall stem text nm ts strat fixed rf h hs files stamps vars tabs d h0 h1 outs tm out tms stem' text',
      get_filename_and_timestamp_pair stem = (nm, ts) ->
      split_run stem (Some text) (lit ".dat") strat fixed rf h = (Ok files, hs) ->
      (Z.of_nat (length files) <= 100000)%Z -> (forall t, In t stamps -> twelve_digits t) ->
      solver_dir nm files stamps vars tabs d ->
      merge_run stem (Some text) d h0 = (Ok outs, h1) ->
      In tm stamps -> In (merged_name nm tm, out) outs ->
      continued (merged_stem nm tm) out tms stem' text' ->
      continued stem text (tm :: tms) stem' text'.

  (** The base name after [k] merges. *)
  Fixpoint base_after (k : nat) (nm : str) : str :=
    match k with
    | O => nm
    | S k => base_after k (nm ++ lit "_r")
    end.
End RestartSpec.
