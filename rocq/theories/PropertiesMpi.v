(** Property theorems about the files for the MPI program (C22, C23). *)

From Coq Require Import ZArith NArith Ascii String Bool Lia List Permutation.
From Verif Require Import Py Heap GridModel GridSpec Zam ZamSpec Mpi MpiSpec MpiProofs Samples SamplesMpi.
Import ListNotations.
Open Scope list_scope.
Open Scope nat_scope.

(** C22.  For every consistent decomposed grid the files are written, one for every
    zone, and for any two zones i, j there is one list L of grid edges - those that
    join the two zones, in grid order - such that: when L is empty neither file lists
    the other zone; otherwise each file lists the other zone, and its k-th entry is
    the local number, in the zone of the file, of the k-th edge of L. *)
Theorem C22_border_lists_match : forall {F : FloatOps} h,
  grid_ok h -> zone_lists_ok h -> numbered h ->
  exists ms, store_mpi_files h = Ok ms /\ length ms = length (g_zones h) /\
    forall i j z y mi mj, i <> j ->
      nth_error (g_zones h) i = Some z -> nth_error (g_zones h) j = Some y ->
      nth_error ms i = Some mi -> nth_error ms j = Some mj ->
      exists L, sublist_of (joins h z y) (g_edges h) L /\
        (L = [] -> (forall ks, ~ In (j, ks) (mf_borders mi)) /\
                   (forall ks, ~ In (i, ks) (mf_borders mj))) /\
        (L <> [] -> exists ki kj, In (j, ki) (mf_borders mi) /\ In (i, kj) (mf_borders mj) /\
           positions (z_edges h z) L ki /\ positions (z_edges h y) L kj).
Proof. exact @mpi_match_main. Qed.
Print Assumptions C22_border_lists_match.

(** C22.  A file lists each neighbour zone once, never its own zone; a listed border
    is not empty, its entries denote edges joining the two zones, and every such edge
    is listed. *)
Theorem C22_borders_exact : forall {F : FloatOps} h ms i z mi,
  grid_ok h -> zone_lists_ok h -> numbered h ->
  store_mpi_files h = Ok ms -> nth_error (g_zones h) i = Some z -> nth_error ms i = Some mi ->
  NoDup (map fst (mf_borders mi)) /\
  forall j ks, In (j, ks) (mf_borders mi) -> j <> i /\ ks <> [] /\
    exists y, nth_error (g_zones h) j = Some y /\
      (forall k, In k ks -> exists e,
         (0 <= k)%Z /\ nth_error (z_edges h z) (Z.to_nat k) = Some e /\ joins h z y e) /\
      (forall e, In e (g_edges h) -> joins h z y e ->
         exists k, In k ks /\ nth_error (z_edges h z) (Z.to_nat k) = Some e).
Proof. exact @mpi_listed_main. Qed.
Print Assumptions C22_borders_exact.

Example C22_example : grid_ok linked6 /\ zone_lists_ok linked6 /\ numbered linked6 /\
  match store_mpi_files linked6 with
  | Ok ms => map mf_borders ms = [[(1, [3%Z])]; [(0, [0%Z]); (2, [5%Z])]; [(1, [0%Z])]]
  | _ => False
  end.
Proof.
  destruct linked6_ok as (H1 & H2 & _). split; [auto|]. split; [auto|]. split; [exact linked6_numbered|].
  vm_compute. reflexivity.
Qed.

(** C23.  The face identifiers in all files together are 0 .. n-1, each once; every
    file describes its zone: name, counts, coordinates, face identifiers and data in
    zone order; the connectivity rows are the positions, in the lists of the file, of
    the nodes and edges of the faces and of the nodes of the edges; the two border
    totals agree with the border lists. *)
Theorem C23_files_describe_zones : forall {F : FloatOps} h,
  grid_ok h -> zone_lists_ok h -> numbered h ->
  exists ms, store_mpi_files h = Ok ms /\ length ms = length (g_zones h) /\
    Permutation (concat (map mf_gloids ms)) (map Z.of_nat (seq 0 (length (g_faces h)))) /\
    forall i z m, nth_error (g_zones h) i = Some z -> nth_error ms i = Some m ->
      mf_title m = z_name h z /\ mf_mpi m = i /\
      mf_nodes m = length (z_nodes h z) /\ mf_edges m = length (z_edges h z) /\
      mf_faces m = length (z_faces h z) /\
      mf_coords m = map (fun c => map (fun n => coord c (n_p h n)) (z_nodes h z)) [0; 1; 2] /\
      mf_gloids m = map (f_glo h) (z_faces h z) /\
      mf_data m = map (fun k => map (fun f => var_value h f k) (z_faces h z)) swim_vars /\
      position_rows (z_nodes h z) (f_nodes h) (z_faces h z) (mf_fn m) /\
      position_rows (z_edges h z) (f_edges h) (z_faces h z) (mf_fe m) /\
      position_rows (z_nodes h z) (e_nodes h) (z_edges h z) (mf_en m) /\
      mf_cross m = list_sum (map (fun b => length (snd b)) (mf_borders m)) /\
      mf_nborders m = length (mf_borders m).
Proof. exact @mpi_cover_main. Qed.
Print Assumptions C23_files_describe_zones.

(** C23.  Positions are within the range of the list they refer to. *)
Theorem C23_local_numbers_in_range : forall A B (l : list A) (row : B -> list A) bs kss,
  position_rows l row bs kss ->
  forall ks k, In ks kss -> In k ks -> (0 <= k < Z.of_nat (length l))%Z.
Proof. exact @position_rows_range. Qed.
Print Assumptions C23_local_numbers_in_range.

Example C23_example : grid_ok linked6 /\ zone_lists_ok linked6 /\ numbered linked6 /\
  match store_mpi_files linked6 with
  | Ok ms => map mf_gloids ms = [[0; 1]; [2; 3; 4]; [5]]%Z /\ map mf_cross ms = [1; 2; 1] /\
             map mf_fn ms = [[[0; 1; 2]; [1; 2; 3]]; [[0; 1; 2]; [1; 2; 3]; [2; 3; 4]]; [[0; 1; 2]]]%Z
  | _ => False
  end.
Proof.
  destruct linked6_ok as (H1 & H2 & _). split; [auto|]. split; [auto|]. split; [exact linked6_numbered|].
  vm_compute. auto.
Qed.
