(** Properties of the texts of the files for the solver: C117.

    Model: Mpi.v, Solver.v, Driver.v.  Specification vocabulary: SolverSpec.v (a strict reader of the
    text of a file), CycleSpec.v, FileSpec.v, StoreSpec.v, DriverSpec.v. *)

From Coq Require Import ZArith Ascii String Bool Lia List Permutation.
From Verif Require Import Py Heap GridModel GridSpec DecompSpec DecompMain GridIO FileSpec StoreSpec Mpi Driver DriverSpec
  Samples SamplesIO SamplesStore SamplesDriver StrategyProofs CycleSpec CycleCases Solver SolverSpec SolverProofs SolverMain SolverCases.
Import ListNotations.
Open Scope list_scope.
Open Scope nat_scope.

(* ================================================================== *)
(** C117.  The texts which store_mpi writes can be read back completely: one file per zone, all
    names different and of the form base_NNNNN_ts.cry, and the strict reader of SolverSpec.v
    accepts each text and finds in it the contents of the file of that zone. *)
Theorem C117_store : forall {F : FloatOps} base ts sf h, faithful_numbers -> grid_ok h -> zone_lists_ok h -> numbered h ->
  (forall z, In z (g_zones h) -> plain_name (z_name h z)) ->
  exists files ms, store_mpi base ts sf h = Ok files /\ store_mpi_files h = Ok ms /\ length files = length (g_zones h) /\ NoDup (map fst files) /\
    forall i nm t, nth_error files i = Some (nm, t) -> file_name base ts sf i nm /\
      exists m, read_cry t = Some m /\ nth_error ms i = Some m.
Proof. exact @store_read. Qed.
Print Assumptions C117_store.

(** C117.  The files which split writes for any strategy. *)
Theorem C117_split : forall {F : FloatOps} text strat fixed rf h hs ms evs base ts sf, faithful_numbers -> order_ok ->
  file_form [] (file_lines text) evs -> no_degenerate (zones_of evs) -> faces_in (zones_of evs) <> 0 ->
  split (Some text) (lit ".dat") strat fixed rf ToMpi h = (Ok (WMpi ms), hs) ->
  exists files, store_mpi base ts sf hs = Ok files /\ length files = length ms /\ NoDup (map fst files) /\
    forall i nm t, nth_error files i = Some (nm, t) -> file_name base ts sf i nm /\
      exists m, read_cry t = Some m /\ nth_error ms i = Some m.
Proof. exact @split_read. Qed.
Print Assumptions C117_split.

(** C117.  A grid file is loaded, decomposed in any way and stored for the solver.  The files are
    those of the zones, in their order; the numbers of faces in all texts are numbers of faces of
    the grid file, each at one place of one text; and for each face of the loaded grid there is a
    text which gives under its number its three corners in their order and its data. *)
Theorem C117_divided : forall {F : FloatOps} nm d text base ts sf h hl h' evs, faithful_numbers -> decomposition nm d ->
  file_form [] (file_lines text) evs -> no_degenerate (zones_of evs) -> faces_in (zones_of evs) <> 0 ->
  load true text (new_grid h) = (Ok tt, hl) -> d hl = (Ok tt, h') ->
  exists files, divide_mpi d text base ts sf h = (Ok files, h') /\ length files = length (g_zones h') /\ NoDup (map fst files) /\
    (forall i n t, nth_error files i = Some (n, t) -> file_name base ts sf i n /\
      exists m z, read_cry t = Some m /\ mf_mpi m = i /\ nth_error (g_zones h') i = Some z /\ mf_title m = z_name h' z) /\
    (forall i n t m j g, nth_error files i = Some (n, t) -> read_cry t = Some m -> nth_error (mf_gloids m) j = Some g ->
      (exists k, k < faces_in (zones_of evs) /\ g = Z.of_nat k) /\
      forall i' n' t' m' j', nth_error files i' = Some (n', t') -> read_cry t' = Some m' -> nth_error (mf_gloids m') j' = Some g ->
        i' = i /\ j' = j) /\
    forall k f, nth_error (g_faces hl) k = Some f -> exists i n t m j,
      nth_error files i = Some (n, t) /\ read_cry t = Some m /\
      cry_face m j (Z.of_nat k) (map (n_p hl) (f_nodes hl f)) /\ cry_data m j (f_data hl f).
Proof. exact @divided_read. Qed.
Print Assumptions C117_divided.

(** C117.  The cycle of C112 through the texts: the solver is given the texts of the files and knows
    only what the strict reader finds in them. *)
Theorem C117_cycle : forall {F : FloatOps} text strat fixed rf h hs ms evs h0 vars base ts sf files txts tabs, faithful_numbers -> order_ok ->
  file_form [] (file_lines text) evs -> no_degenerate (zones_of evs) -> faces_in (zones_of evs) <> 0 ->
  split (Some text) (lit ".dat") strat fixed rf ToMpi h = (Ok (WMpi ms), hs) -> store_mpi base ts sf hs = Ok files ->
  title_in evs <> None \/ plain_name (g_name h0) -> NoDup vars ->
  length txts = length files -> length tabs = length files ->
  (forall i n c t tab, nth_error files i = Some (n, c) -> nth_error txts i = Some t -> nth_error tabs i = Some tab -> solved vars c t tab) ->
  exists out h', merge_one text txts h0 = (Ok out, h') /\
    forall h1, exists h2, load true out h1 = (Ok tt, h2) /\ length (g_faces h2) = faces_in (zones_of evs) /\
      forall i n c m tab j g ps vs, nth_error files i = Some (n, c) -> read_cry c = Some m -> nth_error tabs i = Some tab ->
        cry_face m j g ps -> In (g, vs) tab ->
        exists f, (0 <= g)%Z /\ nth_error (g_faces h2) (Z.to_nat g) = Some f /\ map (n_p h2) (f_nodes h2 f) = ps /\
          f_data h2 f = dict_of str_dec (combine vars vs).
Proof. exact @cycle_texts. Qed.
Print Assumptions C117_cycle.

(** The strip of four triangles, decomposed as by case_009. *)
Example C117_example : @faithful_numbers ZOps /\
  @decomposition ZOps (Some (lit "ridge hierarchical")) (decompose_hierarchical axis_signs 3 (Some (lit "ridge hierarchical")) []) /\
  file_form [] (file_lines ridge) ridge_evs /\ no_degenerate (zones_of ridge_evs) /\ faces_in (zones_of ridge_evs) = 4 /\
  load true ridge (new_grid empty_heap) = (Ok tt, ridge_heap) /\
  decompose_hierarchical axis_signs 3 (Some (lit "ridge hierarchical")) [] ridge_heap = (Ok tt, quarters) /\
  map (fun p => (fst p, option_map mf_gloids (read_cry (snd p)))) (match fst (@mpi_case ZOps (lit "ridge") ridge empty_heap) with Ok l => l | _ => [] end) =
    [(lit "cases/grids/ridge_mpi_00000_000000000100.cry", Some [0]); (lit "cases/grids/ridge_mpi_00001_000000000100.cry", Some [1]);
     (lit "cases/grids/ridge_mpi_00002_000000000100.cry", Some [2]); (lit "cases/grids/ridge_mpi_00003_000000000100.cry", Some [3])]%Z.
Proof.
  split; [exact Z_faithful|]. split; [exact (d_hier _ _ _ _ Zorder_ok axis_signs_mesh)|]. split; [exact ridge_form|]. split; [exact ridge_nd|]. split; [reflexivity|].
  split; [exact ridge_run|]. split; [exact quarters_run|exact ridge_files].
Qed.

(** The reader is strict: a text with a line less or with the number of a node that does not exist is refused. *)
Example C117_reader : option_map (fun m => (mf_gloids m, mf_fn m, mf_en m, mf_borders m)) (@read_cry ZOps (cry_of ["0 1"; "0 2"; "1 2"]%string)) =
    Some ([2], [[0; 1; 2]], [[0; 1]; [0; 2]; [1; 2]], [(0%nat, [0])])%Z /\
  @read_cry ZOps (cry_of ["0 1"; "0 2"]%string) = None /\ @read_cry ZOps (cry_of ["0 1"; "0 2"; "1 3"]%string) = None.
Proof. split; [exact cry_reads|]. split; [exact cry_short|exact cry_wide]. Qed.

(** The plate of two zones, split into two parts (C112_example), as texts. *)
Example C117_cycle_example : let evs := [ETitle (lit "plate"); EZone zoneA; EZone zoneB] in
  file_form [] (file_lines two_zones) evs /\ no_degenerate (zones_of evs) /\ faces_in (zones_of evs) = 3 /\
  split (Some two_zones) (lit ".dat") (lit "n2") [lit "B"] 1%Z ToMpi empty_heap = (Ok (WMpi parts), parted) /\
  @store_mpi ZOps (lit "plate") (lit "0") (lit ".cry") parted = Ok parted_files /\ length parted_files = 2 /\
  title_in evs <> None /\ NoDup [lit "T"; lit "Hi"] /\
  (forall i n c t tab, nth_error parted_files i = Some (n, c) -> nth_error [ans1; ans2] i = Some t ->
    nth_error [rows1; rows2] i = Some tab -> @solved ZOps [lit "T"; lit "Hi"] c t tab).
Proof.
  split; [exact two_zones_form|]. split; [exact two_zones_nd|]. split; [reflexivity|]. split; [exact parted_run|]. split; [exact parted_stored|].
  split; [exact (proj1 parted_read)|]. split; [discriminate|]. split; [constructor; [intros [K|[]]; discriminate K|]; constructor; [intros []|constructor]|exact parted_solved].
Qed.
