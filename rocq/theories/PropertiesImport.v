(** Property theorems about Grid.Import of the converter and about the calc data file of
    Grid.store_faces_calc_data: C89, C90.

    Model: Import.v, Ansys.v, Driver.v, GridIO.v.  Specification vocabulary: ImportSpec.v,
    StoreSpec.v, AnsysExportSpec.v. *)

From Coq Require Import ZArith Reals Ascii String List.
From Verif Require Import Py TextLemmas Heap GridModel GridSpec MpiSpec GridIO FileSpec StoreSpec Geom Convert Ansys AnsysSpec AnsysText AnsysExportSpec
  Driver Samples SamplesStore Import ImportSpec ImportProofs ImportMore ImportCases ImportWordsSpec ImportWords CalcProofs.
Import ListNotations.
Open Scope list_scope.
Open Scope nat_scope.

(* ================================================================== *)
(** C89.  Import of a file stored by Grid.store gives the zones of the grid with their titles,
    nodes, faces, and HTC, Beta, TauX, TauY, TauZ of faces.  This is so if the variables are
    the eight that Import expects, and the names of zones do not contain the words of headers. *)
Theorem C89_stored_partial : forall {F : FloatOps} h, faithful_numbers -> grid_ok h -> zone_lists_ok h -> numbered h -> writable h ->
  grid_vars h = eight -> (forall z, In z (g_zones h) -> quiet (z_name h z)) ->
  exists text izs, store h = Ok text /\ import_grid text = Ok izs /\ Forall2 (imported h) (g_zones h) izs.
Proof. exact @import_stored. Qed.
Print Assumptions C89_stored_partial.

Example C89_example : faithful_numbers /\ (grid_ok eight_heap /\ zone_lists_ok eight_heap /\ numbered eight_heap /\ writable eight_heap /\ grid_vars eight_heap = eight) /\
  (forall z, In z (g_zones eight_heap) -> quiet (z_name eight_heap z)) /\ length (g_zones eight_heap) = 1 /\ length (g_faces eight_heap) = 2.
Proof.
  split; [exact Z_faithful|]. split; [exact eight_good|]. split; [exact eight_quiet|]. split; vm_compute; reflexivity.
Qed.

(** C89.  Import ends on every text. *)
Theorem C89_ends : forall {F : FloatOps} text, import_grid text <> Raise EOutOfFuel.
Proof. exact @import_ends. Qed.
Print Assumptions C89_ends.

(** C89.  A file with one more variable is not imported, ... *)
Theorem C89_more_refuted : exists (F : FloatOps) text h out, faithful_numbers /\ load true text (new_grid empty_heap) = (Ok tt, h) /\
  grid_vars h = eight ++ [lit "RecoveryFactor"] /\ store h = Ok out /\ import_grid out = Raise EValueError.
Proof.
  destruct nine_run as (A & B & out & C & D). exists DOps, nine_text, (snd (@load DOps true nine_text (@new_grid DOps empty_heap))), out.
  split; [exact D_faithful|]. split; [exact (LoadProps.ok_pair _ A)|]. split; [exact B|]. split; [exact C|exact D].
Qed.
Print Assumptions C89_more_refuted.

(** ... a zone with a word of the headers in its name is lost, ... *)
Theorem C89_name_refuted : exists text (h : @heap ZOps) out, load true text (new_grid empty_heap) = (Ok tt, h) /\
  length (g_zones h) = 1 /\ store h = Ok out /\ import_grid out = Ok [].
Proof.
  destruct lost_out as (out & C & D). exists (eight_text "SUBTITLE"), lost_heap, out.
  split; [exact lost_run|]. split; [exact lost_one|]. split; [exact C|exact D].
Qed.
Print Assumptions C89_name_refuted.

(** Every number of every imported zone is a word of the file: the coordinates of nodes are the
    words of three lines and the values of faces are the words of five lines, in order and one
    for each node or face. *)
Theorem C89_words : forall {F : FloatOps} text zs, import_grid text = Ok zs -> Forall (written_zone (file_lines text)) zs.
Proof. exact @import_written. Qed.
Print Assumptions C89_words.

(** ... and no file with faces written by Export of the same class is imported. *)
Theorem C89_export_rejected : forall {F : FloatOps} fm zs, (forall x, word (fm x)) -> Forall exportable zs ->
  (forall z, In z zs -> quiet (fz_title z)) -> (exists z, In z zs /\ fz_faces z <> []) ->
  forall izs, import_grid (List.concat (export fm zs)) <> Ok izs.
Proof. intros F fm zs W. exact (export_rejected fm W zs). Qed.
Print Assumptions C89_export_rejected.

Example C89_export_example : let z := {| fz_title := lit "wing"; fz_nodes := repeat (CNode (V3 0 0 0) (CData 0 0 0 0 0 0)) 3; fz_faces := [(0, 1, 2)] |} in
  (forall x : R, word ((fun _ => lit "0.0") x)) /\ Forall exportable [z] /\ quiet (fz_title z) /\ fz_faces z <> [].
Proof.
  cbv zeta. split; [|split; [|split]].
  - intros x. split; [discriminate|]. intros c I. cbn in I. repeat destruct I as [<-|I]; try reflexivity. destruct I.
  - repeat constructor; intros E; cbn in H; repeat destruct H as [<-|H]; try discriminate; destruct H.
  - intros w I. apply contains_not. cbn [In] in I. repeat destruct I as [<-|I]; try (vm_compute; reflexivity). destruct I.
  - discriminate.
Qed.

(* ================================================================== *)
(** C90.  The calc data file written by store_faces_calc_data, loaded into the same grid, gives
    every face T, Hw and Hi, each increased by the random number drawn for it, and no other
    data; nothing else changes. *)
Theorem C90_calc_round_trip : forall {F : FloatOps} add rand h, faithful_numbers -> NoDup (g_faces h) ->
  (forall i f, nth_error (g_faces h) i = Some f -> f_glo h f = Z.of_nat i) ->
  exists h', load_faces_calc_data (store_faces_calc_data add rand h) h = (Ok tt, h') /\ h' = set_f_data h (f_data h') /\
    (forall f, In f (g_faces h) -> let '(r1, r2, r3) := rand f in
       f_data h' f = [(lit "T", add (var_value h f (lit "T")) r1); (lit "Hw", add (var_value h f (lit "Hw")) r2); (lit "Hi", add (var_value h f (lit "Hi")) r3)]) /\
    (forall f, ~ In f (g_faces h) -> f_data h' f = f_data h f).
Proof.
  intros F add rand h Hn Nd Hg. destruct (calc_round add rand h Hn Nd Hg) as (h' & A & B & C & D). exists h'.
  split; [exact A|]. split; [exact B|]. split; [|exact D]. intros f I. specialize (C f I). unfold drawn in C. destruct (rand f) as [[r1 r2] r3]. exact C.
Qed.
Print Assumptions C90_calc_round_trip.

(** ... in particular other variables are lost. *)
Theorem C90_others_lost : forall {F : FloatOps} add rand h h' f k, faithful_numbers -> NoDup (g_faces h) ->
  (forall i f, nth_error (g_faces h) i = Some f -> f_glo h f = Z.of_nat i) ->
  load_faces_calc_data (store_faces_calc_data add rand h) h = (Ok tt, h') -> In f (g_faces h) ->
  ~ In k (map lit ["T"; "Hw"; "Hi"]%string) -> dget str_dec (f_data h' f) k = None.
Proof.
  intros F add rand h h' f k Hn Nd Hg E I K. destruct (C90_calc_round_trip add rand h Hn Nd Hg) as (h2 & E2 & _ & C & _).
  rewrite E in E2. injection E2 as <-. specialize (C f I). destruct (rand f) as [[r1 r2] r3]. rewrite C.
  cbn [dget]. repeat match goal with |- context [str_dec k ?x] => destruct (str_dec k x) as [->|_]; [exfalso; apply K; cbn [map In]; auto|] end. reflexivity.
Qed.
Print Assumptions C90_others_lost.

Example C90_example : faithful_numbers /\ NoDup (g_faces eight_heap) /\ (forall i f, nth_error (g_faces eight_heap) i = Some f -> f_glo eight_heap f = Z.of_nat i) /\
  g_faces eight_heap <> [] /\ var_value eight_heap 0 (lit "HTC") = 50%Z.
Proof.
  assert (E : g_faces eight_heap = [0; 1]) by (vm_compute; reflexivity).
  split; [exact Z_faithful|]. rewrite E. split; [repeat constructor; cbn; intuition discriminate|].
  split; [|split; [discriminate|vm_compute; reflexivity]].
  intros [|[|i]] f H; [injection H as <-; vm_compute; reflexivity|injection H as <-; vm_compute; reflexivity|destruct i; discriminate].
Qed.
