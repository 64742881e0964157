(** Properties of computations continued from a merged file: C121.

    Model: Stamps.v, Driver.v, Mpi.v, GridIO.v, Utils.v.  Specification vocabulary: RestartSpec.v, StampsSpec.v, SolverSpec.v,
    CycleSpec.v, FileSpec.v, StoreSpec.v, DriverSpec.v, UtilsSpec.v. *)

From Coq Require Import ZArith Ascii String Bool Lia List Permutation.
From Verif Require Import Py Utils UtilsSpec Heap GridModel GridSpec DecompSpec GridIO FileSpec StoreSpec Mpi Driver DriverSpec
  Samples SamplesIO SamplesStore SamplesDriver CycleSpec CycleCases SolverSpec Stamps StampsSpec StampsProofs StampsCases RestartSpec RestartProofs RestartCases.
Import ListNotations.
Open Scope list_scope.
Open Scope nat_scope.

(* ================================================================== *)
(** C121.  After any number of cycles split - solver - merge, each started from a file merged in the one before,
    with any strategies, numbers of parts and time stamps, the last file is again a well-formed grid file
    without degenerate faces; loaded, it has the title of the first grid, the same zones with the same numbers of faces, and the same
    triangles in the same places, at the same points.  The base name has got one "_r" for each merge, and
    its time stamp is the last one taken. *)
Theorem C121_restart : forall {F : FloatOps} stem text tms stem' text', continued stem text tms stem' text' ->
  forall nm ts evs h hl, faithful_numbers -> order_ok -> get_filename_and_timestamp_pair stem = (nm, ts) ->
  file_form [] (file_lines text) evs -> no_degenerate (zones_of evs) -> faces_in (zones_of evs) <> 0 -> load true text (new_grid h) = (Ok tt, hl) ->
  get_filename_and_timestamp_pair stem' = (base_after (length tms) nm, last tms ts) /\
  exists evs', file_form [] (file_lines text') evs' /\ no_degenerate (zones_of evs') /\ faces_in (zones_of evs') = faces_in (zones_of evs) /\
    forall h1, exists h2, load true text' (new_grid h1) = (Ok tt, h2) /\ triangles h2 = triangles hl /\ zone_table h2 = zone_table hl /\ g_name h2 = g_name hl.
Proof. exact @restart. Qed.
Print Assumptions C121_restart.

(** C121.  Hence the cycle never gets stuck in merge: if the last file is split and the solver answers for each part, then merge
    succeeds and writes a file for each time stamp. *)
Theorem C121_next : forall {F : FloatOps} stem text tms stem' text', continued stem text tms stem' text' ->
  forall nm ts evs h hl, faithful_numbers -> order_ok -> get_filename_and_timestamp_pair stem = (nm, ts) ->
  file_form [] (file_lines text) evs -> no_degenerate (zones_of evs) -> faces_in (zones_of evs) <> 0 -> load true text (new_grid h) = (Ok tt, hl) ->
  forall strat fixed rf h2 hs files stamps vars tabs d h0,
  split_run stem' (Some text') (lit ".dat") strat fixed rf h2 = (Ok files, hs) ->
  (Z.of_nat (length files) <= 100000)%Z -> (forall t, In t stamps -> twelve_digits t) ->
  solver_dir (base_after (length tms) nm) files stamps vars tabs d ->
  exists outs h', merge_run stem' (Some text') d h0 = (Ok outs, h') /\
    forall tm, In tm stamps -> exists out, In (merged_name (base_after (length tms) nm) tm, out) outs /\
      continued stem text (tms ++ [tm]) (merged_stem (base_after (length tms) nm) tm) out.
Proof. exact @restart_next. Qed.
Print Assumptions C121_next.

(** The plate in two parts with the answers of the solver of two times: the computation is continued from the second. *)
Example C121_example : let evs := [ETitle (lit "plate"); EZone zoneA; EZone zoneB] in
  @faithful_numbers ZOps /\ @order_ok ZOps /\ get_filename_and_timestamp_pair (lit "wing") = (lit "wing", lit "000000000000") /\
  file_form [] (file_lines two_zones) evs /\ no_degenerate (zones_of evs) /\ faces_in (zones_of evs) = 3 /\
  (exists hl, @load ZOps true two_zones (new_grid empty_heap) = (Ok tt, hl)) /\
  exists out, @continued ZOps (lit "wing") two_zones [tm2] (lit "wing_r_000000000020") out.
Proof.
  cbv zeta. split; [exact Z_faithful|]. split; [exact Zorder_ok|]. split; [reflexivity|]. split; [exact two_zones_form|]. split; [exact two_zones_nd|]. split; [reflexivity|].
  split; [exact (plate_loads)|]. exact plate_continued.
Qed.
