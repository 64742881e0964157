(** Vocabulary for the properties of store: which grids can be written, how the lines
    of the file look, and when two grids have the same contents.  Nothing here refers
    to the modelled functions. *)

From Coq Require Import ZArith NArith Ascii String Bool List.
From Verif Require Import Py Heap GridSpec MpiSpec FileSpec.
Import ListNotations.
Open Scope list_scope.
Open Scope nat_scope.

Section StoreSpec.
  Context {F : FloatOps}.

  (** Formatting of numbers: reading back a written number gives the number; a
      written number is not empty and has no blanks.  (For '{0:.18e}' and float this
      holds for all finite doubles: 19 significant digits determine a double.) *)
  Definition faithful_numbers : Prop := forall v,
    prs (fmt v) = Some v /\ fmt v <> [] /\ forall c, In c (fmt v) -> is_space c = false.

  (** A name without '=' and line breaks. *)
  Definition plain_name (s : str) : Prop := forall c, In c s -> c <> eqsign /\ c <> nl /\ c <> cr.

  (** A name of a variable: not empty, without blanks, quotes, commas and '='. *)
  Definition plain_var (s : str) : Prop :=
    s <> [] /\ forall c, In c s -> is_space c = false /\ c <> dquote /\ c <> comma /\ c <> eqsign.

  (** The variables of a grid: those of its first face. *)
  Definition grid_vars (h : heap) : list str :=
    match g_faces h with [] => [] | f :: _ => keys (f_data h f) end.

  (** The grid has at least one face, and its names can be written.  (The keys of a
      Python dictionary are always different.) *)
  Definition writable (h : heap) : Prop :=
    g_faces h <> [] /\ plain_name (g_name h) /\
    (forall z, In z (g_zones h) -> plain_name (z_name h z)) /\
    (forall k, In k (grid_vars h) -> plain_var k) /\ NoDup (grid_vars h).

  (** A connectivity line: three numbers between 1 and the number of nodes; the nodes
      with these numbers have the positions [cs]. *)
  Definition conn_line (pts cs : list pt) (line : str) : Prop :=
    exists a b c, line = nat_str a ++ lit " " ++ nat_str b ++ lit " " ++ nat_str c ++ [nl] /\
      (1 <= a <= length pts) /\ (1 <= b <= length pts) /\ (1 <= c <= length pts) /\
      map Some cs = [nth_error pts (a - 1); nth_error pts (b - 1); nth_error pts (c - 1)].

  (** The lines [ls] describe the zone [z] completely. *)
  Definition zone_lines (h : heap) (vars : list str) (z : nat) (ls : list str) : Prop :=
    exists cx cy cz data conn,
      ls = [lit "ZONE T=""" ++ z_name h z ++ lit """" ++ [nl];
            lit "NODES=" ++ nat_str (length (z_nodes h z)) ++ [nl];
            lit "ELEMENTS=" ++ nat_str (length (z_faces h z)) ++ [nl];
            lit "DATAPACKING=BLOCK" ++ [nl];
            lit "ZONETYPE=FETRIANGLE" ++ [nl];
            lit "VARLOCATION=([4-" ++ nat_str (3 + length vars) ++ lit "]=CELLCENTERED)" ++ [nl];
            cx; cy; cz] ++ data ++ conn /\
      number_line cx (map (fun n => let '(x, _, _) := n_p h n in x) (z_nodes h z)) /\
      number_line cy (map (fun n => let '(_, y, _) := n_p h n in y) (z_nodes h z)) /\
      number_line cz (map (fun n => let '(_, _, w) := n_p h n in w) (z_nodes h z)) /\
      Forall2 (fun k line => number_line line (map (fun f => var_value h f k) (z_faces h z))) vars data /\
      Forall2 (fun f line => conn_line (map (n_p h) (z_nodes h z)) (map (n_p h) (f_nodes h f)) line)
        (z_faces h z) conn.

  (** The lines before the zones. *)
  Definition head_lines (h : heap) (vars : list str) : list str :=
    [lit "# crys-gsu" ++ [nl];
     lit "TITLE=""" ++ g_name h ++ lit """" ++ [nl];
     lit "VARIABLES=" ++ join (lit ", ") (map (fun k => lit """" ++ k ++ lit """")
                                              (map lit ["X"; "Y"; "Z"]%string ++ vars)) ++ [nl]].

  (** Two grids have the same contents: title, the positions of nodes, zones in order
      with their names and positions of nodes, faces in order with their corner positions, and the values
      of the variables [vars] (and no other variable in the second grid). *)
  Definition same_contents (vars : list str) (h h' : heap) : Prop :=
    g_name h' = g_name h /\ length (g_zones h') = length (g_zones h) /\
    length (g_faces h') = length (g_faces h) /\
    (forall p, In p (map (n_p h') (g_nodes h')) <->
       exists z, In z (g_zones h) /\ In p (map (n_p h) (z_nodes h z))) /\
    forall i z z', nth_error (g_zones h) i = Some z -> nth_error (g_zones h') i = Some z' ->
      z_name h' z' = z_name h z /\
      (forall p, In p (map (n_p h') (z_nodes h' z')) <-> In p (map (n_p h) (z_nodes h z))) /\
      length (z_faces h' z') = length (z_faces h z) /\
      forall k f f', nth_error (z_faces h z) k = Some f -> nth_error (z_faces h' z') k = Some f' ->
        map (n_p h') (f_nodes h' f') = map (n_p h) (f_nodes h f) /\
        keys (f_data h' f') = vars /\
        forall v, In v vars -> dget str_dec (f_data h' f') v = Some (var_value h f v).
End StoreSpec.
