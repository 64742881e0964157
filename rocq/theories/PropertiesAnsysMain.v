(** Properties of the program ansys_to_crystal.py from three files of ANSYS to the stored grid:
    C95.

    Model: AnsysMain.v (with Ansys.v, GridIO.v).  Specification vocabulary: AnsysMainSpec.v,
    AnsysSpec.v, AnsysExportSpec.v, ConvertSpec.v, FileSpec.v. *)

From Coq Require Import ZArith Reals Ascii String Bool Lia Lra List.
From Verif Require Import Py PyLemmas TextLemmas Heap GridModel GridSpec GridIO FileSpec StoreSpec Samples SamplesStore Geom Convert ConvertSpec
  Ansys AnsysSpec AnsysExportSpec AnsysMain AnsysMainSpec AnsysMainText AnsysMainProofs AnsysMainFinal AnsysMainCases AnsysMainRun ProgramsCases.
Import ListNotations.
Open Scope list_scope.
Open Scope nat_scope.

(* ================================================================== *)
(** C95.  Three files of ANSYS with the needed variables (among others, in any columns) and the
    zones of the list (among others): the zones [gs] have the title of the zone, the positions
    and friction of the first file, Beta of the second one, the recovery factor and the
    coefficient of heat transfer that explain the temperatures and the flux, and two triangles for
    every quad.  The stored file, read in any state, holds exactly these zones, with the means of
    the corners on the faces.  If three faces share an edge, or if there is no face at all, then
    nothing is stored. *)
Theorem C95_three_files : forall {F : FloatOps} fl sfmt fm rs rd t v cp, faithful_numbers -> v <> 0%R -> cp <> 0%R ->
  (forall x, number_text (sfmt x)) -> (forall x, fl (sfmt x) = Ok (rs x)) -> (forall x, word (fm x)) -> (forall x, prs (fm x) = Some (rd x)) ->
  forall zones rv ft dt at' sf sd sa cf cd ca kf kd ka nss,
  ~ In dquote zones -> source_text ft sf -> source_text dt sd -> source_text at' sa ->
  has_columns flow_names sf cf -> has_columns drop_names sd cd -> has_columns adiabatic_names sa ca ->
  kept (split_on comma zones) sf kf -> kept (split_on comma zones) sd kd -> kept (split_on comma zones) sa ka ->
  List.length (s_titles sd) = List.length (s_titles sf) -> List.length (s_titles sa) = List.length (s_titles sf) ->
  zip4 (readable3 fl rs t v cp cf cd ca) kf kd ka nss ->
  (forall b x, In b kf -> In x (b_name b) -> x <> eqsign /\ x <> nl /\ x <> cr) ->
  exists gs zrs, zip4 (zone_of_blocks fl rs t v cp cf cd ca rv) kf kd ka gs /\ Forall2 (exported rd) gs zrs /\
    (no_degenerate zrs -> ~ three_share zrs -> (exists zr, In zr zrs /\ zr_conn zr <> []) ->
     forall h, exists out h', ansys_to_crystal fl sfmt fm zones t v cp rv ft dt at' h = (Ok out, h') /\
       forall h0, exists h2, load true out h0 = (Ok tt, h2) /\ grid_ok h2 /\ holds_zones zrs h2) /\
    (three_share zrs -> forall h, fst (ansys_to_crystal fl sfmt fm zones t v cp rv ft dt at' h) = Raise EException) /\
    ((forall zr, In zr zrs -> zr_conn zr = []) -> forall h, fst (ansys_to_crystal fl sfmt fm zones t v cp rv ft dt at' h) = Raise EIndexError).
Proof. exact @program_ok. Qed.
Print Assumptions C95_three_files.

(** Three files with two zones, tail and wing; only wing is asked for.  The first file has one
    more variable, Density. *)
Example C95_example :
  source_text (text_of_src flow_src) flow_src /\ source_text (text_of_src drop_src) drop_src /\ source_text (text_of_src adia_src) adia_src /\
  has_columns flow_names flow_src [0; 1; 2; 4; 5; 6; 7; 8] /\ has_columns drop_names drop_src [0; 1; 2; 3] /\
  has_columns adiabatic_names adia_src [0; 1; 2; 3] /\ kept (split_on comma (lit "wing")) flow_src [flow_wing] /\
  readable3 whole_fl whole_part 270 1 1 [0; 1; 2; 4; 5; 6; 7; 8] [0; 1; 2; 3] [0; 1; 2; 3] flow_wing drop_wing adia_wing wing_nodes.
Proof.
  split; [exact flow_text|]. split; [exact drop_text|]. split; [exact adia_text|]. split; [exact flow_columns|]. split; [exact drop_columns|].
  split; [exact adia_columns|]. split; [exact (wing_kept flow_src _ _ eq_refl eq_refl eq_refl)|exact wing_readable].
Qed.

(** The file that is stored has one zone, wing, with one triangle and the means of the data. *)
Example C95_example_result :
  exists out h', @ansys_to_crystal ZOps whole_fl whole_fmt whole_fmt (lit "wing") 270 1 1 false
    (text_of_src flow_src) (text_of_src drop_src) (text_of_src adia_src) empty_heap = (Ok out, h') /\
  forall h0, exists h2 zr, load true out h0 = (Ok tt, h2) /\ wing_rec zr /\ holds_zones [zr] h2.
Proof. exact wing_run. Qed.

(* ================================================================== *)
(** C81.  A file whose zones all have the same variables: after reading, storing and reading again
    (in any state) the grid holds the zones of the first file, with names, positions,
    faces and values in the same order. *)
Theorem C81_same_zones : forall {F : FloatOps} text h h1 evs vs, faithful_numbers -> load true text (new_grid h) = (Ok tt, h1) ->
  file_form [] (file_lines text) evs -> no_degenerate (zones_of evs) -> g_faces h1 <> [] -> NoDup vs ->
  (forall zr, In zr (zones_of evs) -> zr_vars zr = vs /\ forall row, In row (zr_data zr) -> List.length row = List.length vs) ->
  exists out, store h1 = Ok out /\ forall h0, exists h2, load true out h0 = (Ok tt, h2) /\ grid_ok h2 /\ holds_zones (zones_of evs) h2.
Proof. exact @zones_again. Qed.
Print Assumptions C81_same_zones.

Example C81_same_example : NoDup (zr_vars ice_zone) /\
  forall zr, In zr (zones_of [ETitle (lit "ice"); EZone ice_zone]) ->
    zr_vars zr = zr_vars ice_zone /\ forall row, In row (zr_data zr) -> List.length row = List.length (zr_vars ice_zone).
Proof.
  split.
  - cbn [zr_vars ice_zone]. repeat (constructor; [cbn; intros K; repeat destruct K as [K|K]; try discriminate; auto|]). constructor.
  - intros zr [<-|[]]. split; [reflexivity|]. cbn [zr_data zr_vars ice_zone]. intros row I. repeat destruct I as [<-|I]; try reflexivity. destruct I.
Qed.
