(** Properties of split and merge run on directories: C118.

    Model: Stamps.v, Driver.v, Mpi.v, Utils.v.  Specification vocabulary: StampsSpec.v, SolverSpec.v, CycleSpec.v,
    FileSpec.v, StoreSpec.v, DriverSpec.v, UtilsSpec.v. *)

From Coq Require Import ZArith Ascii String Bool Lia List Permutation.
From Verif Require Import Py Utils UtilsSpec Heap GridModel GridSpec DecompSpec GridIO FileSpec StoreSpec Mpi Driver DriverSpec
  Samples SamplesIO SamplesStore SamplesDriver CycleSpec CycleCases SolverSpec Stamps StampsSpec StampsProofs StampsCases.
Import ListNotations.
Open Scope list_scope.
Open Scope nat_scope.

(* ================================================================== *)
(** C118.  split is run on a grid file into a directory; the solver writes for each part and each time
    stamp a text; merge is run on the same grid file and the directory with these texts, in any order and
    among other files.  Then merge writes exactly one grid file per time stamp, name_r_stamp.dat, and in
    the grid loaded from it the face at place [g] is the triangle which the text of split gives under
    the number [g], with the values computed for it at this time. *)
Theorem C118_directories : forall {F : FloatOps} stem nm ts text strat fixed rf h hs files evs d tms vars tabs h0, faithful_numbers -> order_ok ->
  get_filename_and_timestamp_pair stem = (nm, ts) ->
  file_form [] (file_lines text) evs -> no_degenerate (zones_of evs) -> faces_in (zones_of evs) <> 0 ->
  split_run stem (Some text) (lit ".dat") strat fixed rf h = (Ok files, hs) ->
  (Z.of_nat (length files) <= 100000)%Z -> (forall tm, In tm tms -> twelve_digits tm) ->
  solver_dir nm files tms vars tabs d ->
  exists outs h', merge_run stem (Some text) d h0 = (Ok outs, h') /\ NoDup (map fst outs) /\
    (forall n, In n (map fst outs) <-> exists tm, In tm tms /\ n = merged_name nm tm) /\
    forall tm out, In tm tms -> In (merged_name nm tm, out) outs ->
      forall h1, exists h2, load true out h1 = (Ok tt, h2) /\ length (g_faces h2) = faces_in (zones_of evs) /\
        forall i n c m j g ps vs, nth_error files i = Some (n, c) -> read_cry c = Some m -> cry_face m j g ps -> In (g, vs) (tabs tm i) ->
          exists f, (0 <= g)%Z /\ nth_error (g_faces h2) (Z.to_nat g) = Some f /\ map (n_p h2) (f_nodes h2 f) = ps /\
            f_data h2 f = dict_of str_dec (combine (vars tm) vs).
Proof. exact @directories. Qed.
Print Assumptions C118_directories.

(** C118.  The files of split may lie in the same directory: merge does not take them for texts of the solver. *)
Theorem C118_cry_ignored : forall nm ts i fn, (Z.of_nat i < 100000)%Z -> twelve_digits ts -> file_name nm ts (lit ".cry") i fn ->
  is_filename_correct_crys_txt_file fn nm = Ok false.
Proof. intros nm ts i fn Hi Ht Hf. rewrite (name_canon nm ts (lit ".cry") i fn Hi Hf). exact (cry_ignored nm ts i Hi Ht). Qed.
Print Assumptions C118_cry_ignored.

(** C118.  The texts for other grids may lie there too, also when one name begins like the other. *)
Theorem C118_other_grids : forall nm nm' tm i fn, (Z.of_nat i < 100000)%Z -> twelve_digits tm -> nm' <> nm -> file_name nm' tm (lit ".txt") i fn ->
  is_filename_correct_crys_txt_file fn nm = Ok false.
Proof. intros nm nm' tm i fn Hi Ht Hn Hf. rewrite (name_canon nm' tm (lit ".txt") i fn Hi Hf). exact (other_ignored nm nm' tm i Hi Ht Hn). Qed.
Print Assumptions C118_other_grids.

Example C118_other_grids_example : file_name (lit "wing_r") (lit "000000000010") (lit ".txt") 3 (lit "wing_r_00003_000000000010.txt") /\
  lit "wing_r" <> lit "wing" /\ is_filename_correct_crys_txt_file (lit "wing_r_00003_000000000010.txt") (lit "wing") = Ok false.
Proof.
  split; [exists (lit "00003"); split; [reflexivity|]; split; [reflexivity|]; split; [reflexivity|]; split; [vm_compute; lia|intros _; reflexivity]|]. split; [intros K; discriminate K|reflexivity]. Qed.

(** The plate in two parts, two time stamps with different variables, and other files between the texts. *)
Example C118_example : let evs := [ETitle (lit "plate"); EZone zoneA; EZone zoneB] in
  @faithful_numbers ZOps /\ @order_ok ZOps /\ get_filename_and_timestamp_pair (lit "wing") = (lit "wing", lit "000000000000") /\
  file_form [] (file_lines two_zones) evs /\ no_degenerate (zones_of evs) /\ faces_in (zones_of evs) = 3 /\
  @split_run ZOps (lit "wing") (Some two_zones) (lit ".dat") (lit "n2") [lit "B"] 1%Z empty_heap = (Ok wing_files, parted) /\
  length wing_files = 2 /\ twelve_digits tm1 /\ twelve_digits tm2 /\
  @solver_dir ZOps (lit "wing") wing_files [tm1; tm2] wing_vars wing_tabs wing_dir.
Proof.
  split; [exact Z_faithful|]. split; [exact Zorder_ok|]. split; [reflexivity|]. split; [exact two_zones_form|]. split; [exact two_zones_nd|]. split; [reflexivity|].
  split; [exact wing_run|]. split; [exact (proj1 (proj2 wing_read))|]. split; [split; reflexivity|]. split; [split; reflexivity|exact wing_solver].
Qed.

(** C118 is false when the directory still has a text of an older run with more parts: merge does not
    know how many parts there are, succeeds, and a face gets the old values. *)
Theorem C118_leftover_refuted : exists stem nm text strat fixed rf h hs files d fn t tms vars tabs outs h' out h2 i row,
  @split_run ZOps stem (Some text) (lit ".dat") strat fixed rf h = (Ok files, hs) /\ get_filename_and_timestamp_pair stem = (nm, lit "000000000000") /\
  @solver_dir ZOps nm files tms vars tabs d /\ (exists tm k, In tm tms /\ length files <= k /\ file_name nm tm (lit ".txt") k fn) /\ ~ In fn (map fst d) /\
  merge_run stem (Some text) (d ++ [(fn, t)]) h = (Ok outs, h') /\
  exists tm, In tm tms /\ outs = [(merged_name nm tm, out)] /\ load true out h = (Ok tt, h2) /\ In (0%Z, row) (tabs tm i) /\
    exists f, nth_error (g_faces h2) 0 = Some f /\ f_data h2 f <> dict_of str_dec (combine (vars tm) row).
Proof.
  exists (lit "wing"), (lit "wing"), two_zones, (lit "n2"), [lit "B"], 1%Z, empty_heap, parted, wing_files, new_dir, (lit "wing_00002_000000000010.txt"), old_ans, [tm1],
    wing_vars, wing_tabs, stale_outs, stale, stale_text, stale_heap, 1, [10; 11]%Z.
  split; [exact wing_run|]. split; [reflexivity|]. split; [exact new_solver|].
  split; [exists tm1, 2; split; [left; reflexivity|]; split; [rewrite (proj1 (proj2 wing_read)); lia|apply (named (lit "00002")); reflexivity]|].
  split; [intros [K|[K|[]]]; discriminate K|]. split; [exact stale_run|]. exists tm1. split; [left; reflexivity|]. split; [exact stale_one|]. split; [exact stale_load|].
  split; [right; left; reflexivity|]. destruct (first_data _ _ _ _ _ _ stale_data) as (f & E1 & E2). exists f. split; [exact E1|]. rewrite E2. clear. intros K. vm_compute in K. discriminate K.
Qed.
Print Assumptions C118_leftover_refuted.
