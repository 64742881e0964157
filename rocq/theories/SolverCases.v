(** Concrete data for the examples beside the theorems about the texts of the files for the solver. *)

From Coq Require Import ZArith NArith Ascii String Bool Lia List Permutation.
From Verif Require Import Py Heap GridModel GridSpec DecompSpec DecompMain StrategyProofs GridIO FileSpec StoreSpec Mpi Driver DriverSpec LoadProps
  Samples SamplesIO SamplesStore SamplesDriver GloIdsCases OptionsCases CycleSpec CycleCases Solver SolverSpec SolverProofs SolverMain.
Import ListNotations.
Open Scope list_scope.
Open Scope nat_scope.

(** A strip of four triangles on a slope. *)
Definition ridge : str := text_of
  (["TITLE=""ridge"""; "VARIABLES=""X"", ""Y"", ""Z"", ""T"", ""Hw"""]%string ++
   SamplesIO.zone_head "R" "6" "4" ++
   ["0 1 3 4 6 7"; "1 0 5 3 8 7"; "2 0 4 5 9 8"; "11 12 13 14"; "21 22 23 24"; "1 3 2"; "2 3 4"; "3 5 4"; "4 5 6"]%string).
Definition zoneR : @zone_rec ZOps := mkZone (lit "R") [lit "T"; lit "Hw"]
  [(0, 1, 2); (1, 0, 0); (3, 5, 4); (4, 3, 5); (6, 8, 9); (7, 7, 8)]%Z [[11; 21]; [12; 22]; [13; 23]; [14; 24]]%Z
  [(0, 2, 1); (1, 2, 3); (2, 4, 3); (3, 4, 5)].
Definition ridge_evs : list (@event ZOps) := [ETitle (lit "ridge"); EZone zoneR].

Lemma ridge_form : @file_form ZOps [] (file_lines ridge) ridge_evs.
Proof.
  vm_compute file_lines. apply ff_title; [split; [discriminate|]; split; [reflexivity|]; eexists; split; reflexivity|].
  vars_tac. zone8 zoneR. apply ff_end.
Qed.

Lemma ridge_nd : @no_degenerate ZOps (zones_of ridge_evs).
Proof.
  intros t Ht. vm_compute in Ht. destruct Ht as [<-|[<-|[<-|[<-|[]]]]];
    repeat (constructor; [cbn; intuition discriminate|]); constructor.
Qed.

Definition ridge_heap := snd (@load ZOps true ridge (new_grid empty_heap)).
Lemma ridge_run : @load ZOps true ridge (new_grid empty_heap) = (Ok tt, ridge_heap).
Proof.
  assert (E : fst (@load ZOps true ridge (new_grid empty_heap)) = Ok tt) by (vm_compute; reflexivity).
  exact (ok_pair (@load ZOps true ridge (new_grid empty_heap)) E).
Qed.

(** What case_009 does with it. *)
Definition quarters := snd (@decompose_hierarchical ZOps axis_signs 3 (Some (lit "ridge hierarchical")) [] ridge_heap).
Lemma quarters_run : @decompose_hierarchical ZOps axis_signs 3 (Some (lit "ridge hierarchical")) [] ridge_heap = (Ok tt, quarters).
Proof.
  assert (E : fst (@decompose_hierarchical ZOps axis_signs 3 (Some (lit "ridge hierarchical")) [] ridge_heap) = Ok tt) by (vm_compute; reflexivity).
  exact (ok_pair (@decompose_hierarchical ZOps axis_signs 3 (Some (lit "ridge hierarchical")) [] ridge_heap) E).
Qed.
Lemma ridge_files : map (fun p => (fst p, option_map mf_gloids (read_cry (snd p)))) (match fst (@mpi_case ZOps (lit "ridge") ridge empty_heap) with Ok l => l | _ => [] end) =
  [(lit "cases/grids/ridge_mpi_00000_000000000100.cry", Some [0]); (lit "cases/grids/ridge_mpi_00001_000000000100.cry", Some [1]);
   (lit "cases/grids/ridge_mpi_00002_000000000100.cry", Some [2]); (lit "cases/grids/ridge_mpi_00003_000000000100.cry", Some [3])]%Z.
Proof. vm_compute. reflexivity. Qed.
Lemma quarters_zones : map (z_name quarters) (g_zones quarters) = map lit ["hll"; "hlr"; "hrl"; "hrr"]%string.
Proof. vm_compute. reflexivity. Qed.
Opaque ridge_heap quarters.

(** The text of a small file, and the same with a line missing or with a number of a node too large. *)
Definition cry_of (en : list string) : str := text_of
  (["TITLE=""part"""; "VARIABLES=""X"", ""Y"", ""Z"", ""GloId"", ""T"", ""Hw"", ""Hi"", ""HTC"", ""Beta"", ""MImp2"", ""Vd2"", ""TauX"", ""TauY"", ""TauZ"", ""RecoveryFactor""";
    "MPI=1"; "NODES=3"; "EDGES=3"; "CROSS-EDGES=1"; "FACES=1";
    "NODES COORDINATES:"; "1 0 1 "; "0 1 1 "; "0 0 0 "; "FACES DATA:"; "2"; "9 "; "90 "; "0 "; "0 "; "0 "; "0 "; "0 "; "0 "; "0 "; "0 "; "1 ";
    "FACE-NODE CONNECTIVITY LIST:"; "0 1 2"; "FACE-EDGE CONNECTIVITY LIST:"; "0 1 2"; "EDGE-NODE CONNECTIVITY LIST:"]%string ++ en ++ ["MPI-BORDERS=1"; "[0] 0 "]%string).
Lemma cry_reads : option_map (fun m => (mf_gloids m, mf_fn m, mf_en m, mf_borders m)) (@read_cry ZOps (cry_of ["0 1"; "0 2"; "1 2"]%string)) =
  Some ([2], [[0; 1; 2]], [[0; 1]; [0; 2]; [1; 2]], [(0%nat, [0])])%Z.
Proof. vm_compute. reflexivity. Qed.
Lemma none_map : forall A B (f : A -> B) o, option_map f o = None -> o = None.
Proof. intros A B f [a|] H; [discriminate H|reflexivity]. Qed.
Lemma cry_short : @read_cry ZOps (cry_of ["0 1"; "0 2"]%string) = None.
Proof. apply (none_map _ _ mf_gloids). vm_compute. reflexivity. Qed.
Lemma cry_wide : @read_cry ZOps (cry_of ["0 1"; "0 2"; "1 3"]%string) = None.
Proof. apply (none_map _ _ mf_gloids). vm_compute. reflexivity. Qed.

(** The files of [parted] as texts. *)
Definition parted_files : list (str * str) := match @store_mpi ZOps (lit "plate") (lit "0") (lit ".cry") parted with Ok l => l | _ => [] end.
Lemma parted_stored : @store_mpi ZOps (lit "plate") (lit "0") (lit ".cry") parted = Ok parted_files.
Proof.
  destruct (@split_read ZOps two_zones (lit "n2") [lit "B"] 1%Z empty_heap parted parts _ (lit "plate") (lit "0") (lit ".cry") Z_faithful Zorder_ok two_zones_form two_zones_nd)
    as (files & E & _); [discriminate|exact parted_run|]. unfold parted_files. rewrite E. reflexivity.
Qed.
Opaque parted_files.
Lemma parted_read : length parted_files = 2 /\ forall i n c, nth_error parted_files i = Some (n, c) -> exists m, @read_cry ZOps c = Some m /\ nth_error parts i = Some m.
Proof.
  destruct (@split_read ZOps two_zones (lit "n2") [lit "B"] 1%Z empty_heap parted parts _ (lit "plate") (lit "0") (lit ".cry") Z_faithful Zorder_ok two_zones_form two_zones_nd)
    as (files & E & L & _ & Q); [discriminate|exact parted_run|]. rewrite parted_stored in E. apply (f_equal (fun r => match r with Ok l => l | _ => [] end)) in E.
  cbn beta iota in E. rewrite E. split; [rewrite L, <- (map_length mf_gloids), parts_ids; reflexivity|]. intros i n c H. exact (proj2 (Q i n c H)).
Qed.
Lemma parted_solved : forall i n c t tab, nth_error parted_files i = Some (n, c) -> nth_error [ans1; ans2] i = Some t ->
  nth_error [rows1; rows2] i = Some tab -> @solved ZOps [lit "T"; lit "Hi"] c t tab.
Proof.
  intros i n c t tab H1 H2 H3. destruct (proj2 parted_read i n c H1) as (m & R & P). exists m. split; [exact R|]. exact (answers i m t tab P H2 H3).
Qed.
