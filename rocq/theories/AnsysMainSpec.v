(** Specification vocabulary for the program ansys_to_crystal.py as a whole. *)

From Coq Require Import ZArith Reals List Ascii String.
From Verif Require Import Py GridSpec Geom Convert ConvertSpec Ansys AnsysSpec.
Import ListNotations.
Open Scope list_scope.

(** A file of ANSYS: lines with titles, one line of variables, zones. *)
Record source : Type := Source { s_titles : list str; s_vars : str; s_raws : list str; s_blocks : list block }.

(** The text of a file; every row has a word for every variable. *)
Definition source_text (text : str) (s : source) : Prop :=
  file_lines text = s_titles s ++ s_vars s :: flat_map block_lines (s_blocks s) /\
  Forall head_title (s_titles s) /\ variables_line (s_vars s) (s_raws s) /\ Forall good_block (s_blocks s) /\
  Forall (fun b => Forall (words (List.length (s_raws s))) (b_nodes b)) (s_blocks s).

(** The columns [cols] of the file are those of the variables [names], in this order, and no
    other column answers to one of them. *)
Definition has_columns (names : list str) (s : source) (cols : list nat) : Prop :=
  columns names (map (remove_char dquote) (s_raws s)) cols /\
  Forall2 (last_answer names) (pick cols (map (remove_char dquote) (s_raws s))) names.

(** The zones of the file with names from [zs], in order. *)
Definition kept (zs : list str) (s : source) (bs : list block) : Prop :=
  sublist_of (fun b => In (b_name b) zs) (s_blocks s) bs.

(** The variables that are needed from the three files: positions, temperature, friction and
    flux; share of drops that are caught; temperature without heat exchange. *)
Definition flow_names : list str :=
  [lit "X"; lit "Y"; lit "Z"; lit "Static temperature"; lit "SF1"; lit "SF2"; lit "SF3"; lit "Classical heat flux"].
Definition drop_names : list str := [lit "X"; lit "Y"; lit "Z"; lit "Collection efficiency-Droplet"].
Definition adiabatic_names : list str := [lit "X"; lit "Y"; lit "Z"; lit "Static temperature"].

(** The text of a number: a word that is not taken for a keyword. *)
Definition number_text (s : str) : Prop :=
  s <> [] /\ (forall c, In c s -> is_space c = false) /\ plain s.

Section Rows.
  (** [fl] reads numbers; [rs x] is the number read back from what str(x) gives. *)
  Variables (fl : str -> res R) (rs : R -> R) (t v cp : R).
  (** The columns in the three files. *)
  Variables (cf cd ca : list nat).

  (** The node [n] of the rows [f] (fensap), [d] (drop3d) and [a] (adiabatic): the position and
      the friction are those of the first file, Beta is that of the second one; the
      recovery factor is such that the temperature of the third file is
      t + rf * v^2 / (2 * cp), and the coefficient of heat transfer times the difference of the
      temperatures is minus the flux. *)
  Definition node_of_rows (f d a : str) (n : cnode) : Prop :=
    exists x y z ts sx sy sz q d1 d2 d3 beta a1 a2 a3 st vts vst vq htc rf,
      pick cf (split_ws f) = [x; y; z; ts; sx; sy; sz; q] /\
      pick cd (split_ws d) = [d1; d2; d3; beta] /\ pick ca (split_ws a) = [a1; a2; a3; st] /\
      coordinate fl x (vx (cn_point n)) /\ coordinate fl y (vy (cn_point n)) /\ coordinate fl z (vz (cn_point n)) /\
      fl beta = Ok (c_beta (cn_data n)) /\
      fl sx = Ok (c_taux (cn_data n)) /\ fl sy = Ok (c_tauy (cn_data n)) /\ fl sz = Ok (c_tauz (cn_data n)) /\
      fl ts = Ok vts /\ fl st = Ok vst /\ fl q = Ok vq /\ vts <> vst /\
      (vst = t + rf * (v * v) / (2 * cp))%R /\ (htc * (vts - vst) = - vq)%R /\
      c_htc (cn_data n) = rs htc /\ c_rf (cn_data n) = rs rf.

  (** The zone in memory of three zones of files. *)
  Definition zone_of_blocks (reversed : bool) (b d a : block) (z : fzone) : Prop :=
    fz_title z = b_name b /\ zip4 node_of_rows (b_nodes b) (b_nodes d) (b_nodes a) (fz_nodes z) /\
    exists quads groups, Forall2 (quad_from (List.length (b_nodes b))) (b_elems b) quads /\
      Forall2 (split_quad reversed) quads groups /\ fz_faces z = List.concat groups.

  (** Three zones that can be read: as many rows in each, numbers in all places that
      are needed, and rows of elements in the first one. *)
  Definition readable3 (b d a : block) (ns : list cnode) : Prop :=
    same_size b d /\ same_size b a /\ zip4 node_of_rows (b_nodes b) (b_nodes d) (b_nodes a) ns /\
    Forall (fun l => exists q, quad_from (List.length (b_nodes b)) l q) (b_elems b).
End Rows.
