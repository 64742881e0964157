(** Properties of the converters of ANSYS files as texts: C55 and C72 for whole files,
    C56, C75, C76, C77, C78.

    Model: Ansys.v, Convert.v.  Specification vocabulary: AnsysSpec.v, AnsysExportSpec.v,
    ConvertSpec.v, FileSpec.v. *)

From Coq Require Import ZArith Reals Lra Lia List String Ascii.
From Verif Require Import Py PyLemmas TextLemmas Heap GridSpec FileSpec GridModel GridIO LoadProps Geom Convert ConvertSpec Ansys AnsysSpec AnsysText AnsysProofs
  AnsysMore AnsysExportSpec AnsysExport AnsysCases AnsysPipe AnsysExamples.
Import ListNotations.
Open Scope list_scope.
Open Scope nat_scope.

(* ================================================================== *)
(** C56.  filter_with_mask keeps exactly the masked columns in order: the items in the
    places where the mask is set. *)
Theorem C56_mask : forall A (a : list A) (m : list bool),
  exists cols, Sorted.StronglySorted lt cols /\ (forall i, In i cols <-> nth_error m i = Some true) /\
    filter_with_mask a m = pick cols a.
Proof. exact mask_spec. Qed.
Print Assumptions C56_mask.

(** filter_zones keeps the lines of titles and variables and the zones with requested
    names, with all their rows, in order, and nothing else. *)
Theorem C56_zones : forall zs ps, Forall (fun z => ~ In dquote z) zs -> Forall good_piece ps ->
  exists qs, selected zs ps qs /\ filter_zones zs 0 0 (file_of ps) = Ok (file_of qs).
Proof. exact filter_zones_ok. Qed.
Print Assumptions C56_zones.

(** filter_variables selects the same columns in the line of variables and in all rows;
    they are those to which a requested name answers.  Nothing else changes. *)
Theorem C56_variables : forall snames titles vline raws bs,
  Forall head_title titles -> variables_line vline raws -> Forall good_block bs ->
  let fnames := map (remove_char dquote) raws in
  exists cols names, columns snames fnames cols /\ Forall2 (last_answer snames) (pick cols fnames) names /\
    filter_variables snames None 0 0 (titles ++ vline :: flat_map block_lines bs) =
    Ok (titles ++ written_variables names :: flat_map block_lines (map (with_rows (fun l => written_row (pick cols (split_ws l)))) bs)).
Proof. exact filter_variables_ok. Qed.
Print Assumptions C56_variables.

Example C56_example_mask : filter_with_mask [10; 20; 30; 40] [true; false; true; true] = [10; 30; 40].
Proof. reflexivity. Qed.
Example C56_example_zones :
  Forall good_piece flow_file /\ selected [lit "tail"] flow_file [Head title; Head vars_tight; Data tail] /\
  filter_zones [lit "tail"] 0 0 (file_of flow_file) = Ok [title; vars_tight; tail_head; ln "5 0 0 300"; ln "6 0 0 301"].
Proof. exact flow_tail. Qed.
Example C56_example_variables :
  variables_line vars_tight [tx "'X'"; tx "'Y'"; tx "'Z'"; ln "'Static temperature'"] /\ Forall good_block [wing; tail] /\
  filter_variables [lit "Y"; lit "temperature"] None 0 0 ([title] ++ vars_tight :: flat_map block_lines [wing; tail]) =
  Ok [title; ln "VARIABLES='Y', 'temperature'"; wing_head; ln "0 271"; ln "0 272"; ln "1 273"; ln "1 2 3 3"; tail_head; ln "0 300"; ln "0 301"].
Proof. exact flow_two_columns. Qed.

(* ================================================================== *)
(** C75.  Every requested variable declared in the line of variables is kept.  It is so when
    the quoted name follows the comma at once (what is after the name, such as the end of
    the line, matters only for names of one character). *)
Theorem C75_requested_kept_partial : forall snames titles vline raws bs i name t,
  Forall head_title titles -> variables_line vline raws -> Forall good_block bs ->
  In name snames -> ~ In dquote name -> ~ In dquote t ->
  nth_error raws i = Some (quoted name ++ t) -> t = [] \/ List.length name <> 1 ->
  exists cols names, In i cols /\
    filter_variables snames None 0 0 (titles ++ vline :: flat_map block_lines bs) =
    Ok (titles ++ written_variables names :: flat_map block_lines (map (with_rows (fun l => written_row (pick cols (split_ws l)))) bs)).
Proof. exact requested_kept. Qed.
Print Assumptions C75_requested_kept_partial.

(** It is not so when there is a blank after the comma: a name of one character is lost.
    filter_variables itself writes such files, so that a second run of it on its own output
    loses columns. *)
Theorem C75_requested_kept_refuted : exists snames ls out out',
  filter_variables snames None 0 0 ls = Ok out /\ filter_variables snames None 0 0 out = Ok out' /\
  In (ln "VARIABLES='X', 'Y', 'Z', 'Static temperature'") out /\
  In (lit "Y") snames /\ In (lit "Z") snames /\ In (ln "VARIABLES='X', 'Static temperature'") out'.
Proof. exact second_run_loses. Qed.
Print Assumptions C75_requested_kept_refuted.

(** Nor are only requested variables kept: a longer name passes for the requested one. *)
Theorem C75_only_requested_refuted : exists snames ls out,
  filter_variables snames None 0 0 ls = Ok out /\
  In (ln "VARIABLES='X','Y','Z','Static temperature','Gradient of Static temperature'") ls /\
  ~ In (lit "Gradient of Static temperature") snames /\
  In (ln "VARIABLES='X', 'Y', 'Z', 'Static temperature', 'Static temperature'") out.
Proof. exact longer_name_kept. Qed.
Print Assumptions C75_only_requested_refuted.

Example C75_example : nth_error [tx "'X'"; tx "'Y'"; tx "'Z'"; ln "'Static temperature'"] 1 = Some (quoted (lit "Y") ++ []) /\
  nth_error [tx "'X'"; tx "'Y'"; tx "'Z'"; ln "'Static temperature'"] 3 = Some (quoted (lit "Static temperature") ++ [nl]).
Proof. split; vm_compute; reflexivity. Qed.

(* ================================================================== *)
(** C76.  The merged file has the lines of the file fensap; the row of a node has its
    coordinates, the eighth field of fensap (Flux), the fourth of drop3d (Beta), the
    fifth to seventh of fensap (Tau), the fourth of fensap (Ts) and the fourth of adiabatic
    (StatT), all from rows with the same number, provided the files have as many lines before
    zones and zones of the same sizes.  What is missing: that the rows with the same
    number belong to the same node and that fields are those named. *)
Theorem C76_merge_partial : forall titles vline bs dheads ds aheads al,
  Forall head_title titles -> occurs (lit "VARIABLES") vline -> ~ occurs (lit "TITLE") vline -> Forall good_block bs ->
  List.length dheads = S (List.length titles) -> List.length aheads = S (List.length titles) ->
  Forall2 same_size bs ds -> Forall2 same_size bs al ->
  Forall (fun b => Forall (words 8) (b_nodes b)) bs -> Forall (fun b => Forall (words 4) (b_nodes b)) ds -> Forall (fun b => Forall (words 4) (b_nodes b)) al ->
  exists ms, zip4 merged_block bs ds al ms /\
    merge_files 0 0 (titles ++ vline :: flat_map block_lines bs) (dheads ++ flat_map block_lines ds) (aheads ++ flat_map block_lines al) =
    Ok (titles ++ header_of merged_names :: flat_map block_lines ms).
Proof. exact merge_ok. Qed.
Print Assumptions C76_merge_partial.

(** Nodes in another order in the file drop3d: the node (0, 0, 0) gets Beta of the node
    (1, 0, 0), nothing is reported. *)
Theorem C76_other_order_refuted : exists fs ds al out,
  merge_files 0 0 fs ds al = Ok out /\
  In (ln "0 0 0 .01") ds /\ In (ln "1 0 0 .02") ds /\
  In (ln "0 0 0 50 .02 .1 .2 .3 271 281") out /\ In (header_of merged_names) out.
Proof. exact other_order. Qed.
Print Assumptions C76_other_order_refuted.

(** Variables in another order in the file fensap: filter_variables leaves them in the
    order of the file, and the merged file has the temperature as Flux and the flux as Ts. *)
Theorem C76_column_order_refuted : exists fs flt ds al out,
  In (ln "VARIABLES='X','Y','Z','Classical heat flux','SF1','SF2','SF3','Static temperature'") fs /\ In (ln "5 0 0 50 .1 .2 .3 271") fs /\
  filter_variables fensap_names None 0 0 fs = Ok flt /\ merge_files 0 0 flt ds al = Ok out /\
  In (header_of merged_names) out /\ In (ln "5 0 0 271 .01 .1 .2 .3 50 281") out.
Proof. exact column_order. Qed.
Print Assumptions C76_column_order_refuted.

Example C76_example :
  Forall head_title [title] /\ occurs (lit "VARIABLES") vars_spaced /\ ~ occurs (lit "TITLE") vars_spaced /\ Forall good_block [fensap_wing] /\
  Forall2 same_size [fensap_wing] [drop_wing] /\ Forall2 same_size [fensap_wing] [adia_wing] /\
  merge_files 0 0 (title :: vars_spaced :: block_lines fensap_wing) (title :: vars_spaced :: block_lines drop_wing) (title :: vars_spaced :: block_lines adia_wing) =
  Ok (title :: header_of merged_names :: wing_head :: [ln "0 0 0 50 .01 .1 .2 .3 271 281"; ln "1 0 0 60 .02 .4 .5 .6 272 282"; ln "0 1 0 70 .03 .7 .8 .9 273 283"; ln "1 2 3 3"]).
Proof. exact merge_case. Qed.

(* ================================================================== *)
(** C72.  calculate_htc_recovery_factor for whole files: every row gets the coefficient of
    heat transfer in place of the flux and the recovery factor in place of the two
    temperatures; other fields, elements and headers of zones stay. *)
Theorem C72_file : forall fl fmt t v cp, v <> 0%R -> cp <> 0%R -> forall titles vline bs,
  Forall head_title titles -> occurs (lit "VARIABLES") vline -> ~ occurs (lit "TITLE") vline -> Forall good_block bs ->
  Forall (fun b => Forall (htc_readable fl) (b_nodes b)) bs ->
  exists ms, Forall2 (rows_related (htc_written fl fmt t v cp)) bs ms /\
    calculate_htc fl fmt t v cp 0 0 (titles ++ vline :: flat_map block_lines bs) = Ok (titles ++ header_of htc_names :: flat_map block_lines ms).
Proof. exact htc_file_ok. Qed.
Print Assumptions C72_file.

Example C72_example_file : Forall (fun b => Forall (htc_readable (fun s => Ok (INR (List.length s)))) (b_nodes b)) [merged_wing] /\ Forall good_block [merged_wing].
Proof. exact htc_case. Qed.

(* ================================================================== *)
(** C55.  LoadNodesData for whole files: a zone in memory for every zone of the file, with
    its name, its nodes in order and, for every element, the triangles of its quad. *)
Theorem C55_file : forall fl rv ps, Forall good_piece ps -> Forall (readable fl) (blocks_of ps) ->
  exists zs, load_nodes_data fl rv 0 0 [] (file_of ps) = Ok zs /\ Forall2 (loaded_zone fl rv) (blocks_of ps) zs.
Proof. exact load_nodes_ok. Qed.
Print Assumptions C55_file.

Example C55_example_file : Forall good_piece [Head title; Data nodes_wing] /\ Forall (readable (fun s => Ok (INR (List.length s)))) (blocks_of [Head title; Data nodes_wing]).
Proof. exact readable_case. Qed.

(* ================================================================== *)
(** C77.  data_from_nodes_to_faces: the exported file is a well-formed file for Grid.load
    with the zones of the source file; nodes are as read, faces are the triangles, the value
    of every variable of a face is the mean of the values of its corners.  [fm] is '%f' % (.),
    [rd x] is the number read back from it. *)
Theorem C77_nodes_to_faces : forall {F : FloatOps} fl fm rd rv ps,
  (forall x, word (fm x)) -> (forall x, prs (fm x) = Some (rd x)) ->
  Forall good_piece ps -> Forall (readable fl) (blocks_of ps) ->
  (forall b x, In b (blocks_of ps) -> In x (b_name b) -> x <> eqsign /\ x <> nl /\ x <> cr) ->
  exists zs zrs, load_nodes_data fl rv 0 0 [] (file_of ps) = Ok zs /\ Forall2 (loaded_zone fl rv) (blocks_of ps) zs /\
    Forall2 (exported rd) zs zrs /\ file_form [] (file_lines (List.concat (export fm zs))) (map EZone zrs).
Proof. exact @nodes_to_faces. Qed.
Print Assumptions C77_nodes_to_faces.

(** The grid loaded from it has these zones. *)
Theorem C77_grid : forall {F : FloatOps} fl fm rd rv ps merge h h' zs,
  (forall x, word (fm x)) -> (forall x, prs (fm x) = Some (rd x)) ->
  Forall good_piece ps -> Forall (readable fl) (blocks_of ps) ->
  (forall b x, In b (blocks_of ps) -> In x (b_name b) -> x <> eqsign /\ x <> nl /\ x <> cr) ->
  load_nodes_data fl rv 0 0 [] (file_of ps) = Ok zs ->
  load merge (List.concat (export fm zs)) h = (Ok tt, h') ->
  Forall2 (loaded_zone fl rv) (blocks_of ps) zs /\
  exists zrs, Forall2 (exported rd) zs zrs /\ holds_zones zrs h' /\ zones_ok h'.
Proof. exact @nodes_to_grid. Qed.
Print Assumptions C77_grid.

Example C77_example : Forall good_piece [Head title; Data nodes_wing] /\ Forall (readable (fun s => Ok (INR (List.length s)))) (blocks_of [Head title; Data nodes_wing]) /\
  (forall b x, In b (blocks_of [Head title; Data nodes_wing]) -> In x (b_name b) -> x <> eqsign /\ x <> nl /\ x <> cr).
Proof. exact nodes_case. Qed.

(* ================================================================== *)
(** C78.  A zone with fewer rows than it declares is reported.  It is so for requested zones
    that are followed by another header. *)
Theorem C78_short_zone_partial : forall zs ps h name n e ls m r,
  Forall (fun z => ~ In dquote z) zs -> Forall good_piece ps ->
  occurs (lit "ZONE") h -> ~ occurs (lit "TITLE") h -> ~ occurs (lit "VARIABLES") h -> names_zone h name -> In name zs -> declares h n e ->
  Forall plain ls -> List.length ls < n + e ->
  (occurs (lit "TITLE") m \/ occurs (lit "VARIABLES") m \/ occurs (lit "ZONE") m) ->
  filter_zones zs 0 0 (file_of ps ++ h :: ls ++ m :: r) = Raise EException.
Proof. exact short_zone_reported. Qed.
Print Assumptions C78_short_zone_partial.

(** It is not so for the last zone: three nodes and an element are declared, one row is there. *)
Theorem C78_short_zone_refuted : exists zs ls, declares wing_head 3 1 /\ ls = [title; wing_head; ln "0 0 0 271"] /\
  filter_zones zs 0 0 ls = Ok ls.
Proof. exists [lit "wing"], [title; wing_head; ln "0 0 0 271"]. split; [exact wing_counts|]. split; [reflexivity|exact last_zone_short]. Qed.
Print Assumptions C78_short_zone_refuted.

Example C78_example : filter_zones [lit "wing"] 0 0 (file_of [Head title; Data tail] ++ wing_head :: [ln "0 0 0 271"] ++ tail_head :: []) = Raise EException.
Proof. vm_compute. reflexivity. Qed.
