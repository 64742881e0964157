(** Property theorems about Grid.load and Grid.store (C01 - C08). *)

From Coq Require Import ZArith NArith Ascii String Bool Lia List Permutation.
From Verif Require Import Py Heap HeapLemmas GridModel GridSpec GridIO FileSpec LoadMain LoadFresh LoadProps
  StoreSpec StoreProofs RoundTrip Samples SamplesIO SamplesStore.
Import ListNotations.
Open Scope list_scope.
Open Scope nat_scope.

(** C01.  Storing a consistent grid and loading the file into any grid object succeeds
    and gives a grid with the same contents, which is again consistent. *)
Theorem C01_store_load_round_trip : forall {F : FloatOps} h h0,
  faithful_numbers -> grid_ok h -> zone_lists_ok h -> numbered h -> nodes_merged h -> writable h ->
  exists text h', store h = Ok text /\ load true text h0 = (Ok tt, h') /\
    same_contents (grid_vars h) h h' /\
    grid_ok h' /\ zone_lists_ok h' /\ nodes_merged h' /\ numbered_in_order h'.
Proof. exact @round_trip. Qed.
Print Assumptions C01_store_load_round_trip.

Example C01_example :
  (faithful_numbers /\ (grid_ok plate /\ zone_lists_ok plate /\ numbered plate /\ nodes_merged plate) /\
   writable plate) /\
  map (z_name plate) (g_zones plate) = [lit "A"; lit "B"] /\
  map (fun f => map (n_p plate) (f_nodes plate f)) (g_faces plate) =
    [[(0, 0, 0); (1, 0, 0); (0, 1, 0)]; [(0, 0, 0); (0, 1, 0); (-1, -1, 0)]; [(1, 0, 0); (0, 1, 0); (1, 1, 0)]]%Z.
Proof.
  split; [split; [exact Z_faithful|split; [exact plate_ok|exact plate_writable]]|].
  vm_compute. repeat split.
Qed.

(** C02.  A file in which no face has two coinciding corners gives, when accepted, a
    grid with consistent incidence: with merging always, without merging if the nodes
    of each zone are pairwise different. *)
Theorem C02_loaded_incidence : forall {F : FloatOps} merge text h h' evs,
  load merge text h = (Ok tt, h') ->
  file_form [] (file_lines text) evs ->
  no_degenerate (zones_of evs) ->
  merge = true \/ (forall zr, In zr (zones_of evs) -> NoDup (map rnd (zr_pts zr))) ->
  topo_ok h' /\ zones_ok h'.
Proof. exact @load_incidence_main. Qed.
Print Assumptions C02_loaded_incidence.

(** C02.  The grid consists of the zones of the file: names, faces in the order of the
    file with their values and corners. *)
Theorem C02_loaded_contents : forall {F : FloatOps} merge text h h' evs,
  load merge text h = (Ok tt, h') -> file_form [] (file_lines text) evs ->
  holds_zones (zones_of evs) h' /\ zones_ok h' /\ numbered_in_order h'.
Proof. exact @load_contents_main. Qed.
Print Assumptions C02_loaded_contents.

Example C02_example :
  file_form [] (file_lines two_zones) [ETitle (lit "plate"); EZone zoneA; EZone zoneB] /\
  no_degenerate [zoneA; zoneB] /\
  let '(r, h) := load true two_zones empty_heap in
  r = Ok tt /\ length (g_nodes h) = 5 /\ length (g_edges h) = 7 /\ length (g_faces h) = 3 /\
  map (e_faces h) (g_edges h) = [[0]; [0; 1]; [0; 2]; [1]; [1]; [2]; [2]].
Proof. split; [exact two_zones_form|]. split; [exact two_zones_nd|]. vm_compute. repeat split. Qed.

(** C03.  A file in which three faces share two different corners is rejected with an
    exception, whatever the order of the faces and zones. *)
Theorem C03_nonmanifold_rejected : forall {F : FloatOps} text h evs,
  file_form [] (file_lines text) evs -> three_share (zones_of evs) ->
  fst (load true text h) = Raise EException.
Proof. exact @load_rejects_main. Qed.
Print Assumptions C03_nonmanifold_rejected.

(** C03.  An edge of a loaded grid never has more than two faces. *)
Theorem C03_at_most_two_faces : forall {F : FloatOps} merge text h h',
  load merge text h = (Ok tt, h') -> forall e, In e (g_edges h') -> length (e_faces h' e) <= 2.
Proof. exact @load_two_main. Qed.
Print Assumptions C03_at_most_two_faces.

(** C03.  Nothing else is rejected: a well-formed file without degenerate faces and
    without a pair of corners shared by three faces is accepted. *)
Theorem C03_manifold_accepted : forall {F : FloatOps} merge text h evs,
  file_form [] (file_lines text) evs ->
  no_degenerate (zones_of evs) -> ~ three_share (zones_of evs) ->
  merge = true \/ (forall zr, In zr (zones_of evs) -> NoDup (map rnd (zr_pts zr))) ->
  exists h', load merge text h = (Ok tt, h').
Proof. exact @load_accepts_main. Qed.
Print Assumptions C03_manifold_accepted.

Example C03_example :
  file_form [] (file_lines three_on_edge) [EZone zoneA2; EZone zoneB2] /\ three_share [zoneA2; zoneB2] /\
  fst (load true three_on_edge empty_heap) = Raise EException.
Proof. split; [exact three_on_edge_form|]. split; [exact three_on_edge_share|]. vm_compute. reflexivity. Qed.
Example C03_example_accepted :
  file_form [] (file_lines two_zones) [ETitle (lit "plate"); EZone zoneA; EZone zoneB] /\
  no_degenerate [zoneA; zoneB] /\ ~ three_share [zoneA; zoneB].
Proof. split; [exact two_zones_form|]. split; [exact two_zones_nd|exact two_zones_manifold]. Qed.

(** C04.  The nodes of the loaded grid are, in order, the points of the file that
    differ after rounding from all earlier ones (with merging) or all points (without
    merging); with merging no two nodes have the same rounded position; the
    identifiers are the positions in the list. *)
Theorem C04_node_merging : forall {F : FloatOps} merge text h h' evs,
  load merge text h = (Ok tt, h') -> file_form [] (file_lines text) evs ->
  map (n_p h') (g_nodes h') = (if merge then firsts (all_pts (zones_of evs)) else all_pts (zones_of evs)) /\
  (forall n, In n (g_nodes h') -> n_rc h' n = rnd (n_p h' n)) /\
  (merge = true -> NoDup (map (n_rc h') (g_nodes h'))) /\
  (forall i n, nth_error (g_nodes h') i = Some n -> n_glo h' n = Z.of_nat i).
Proof. exact @load_nodes_main. Qed.
Print Assumptions C04_node_merging.

(** C04.  With merging, a point of the file is represented by exactly one node; the
    position of this node is that of the first point of the file with the same rounded
    position. *)
Theorem C04_representative : forall {F : FloatOps} text h h' evs j p,
  load true text h = (Ok tt, h') -> file_form [] (file_lines text) evs ->
  nth_error (all_pts (zones_of evs)) j = Some p ->
  exists n, In n (g_nodes h') /\ n_rc h' n = rnd p /\
    (forall m, In m (g_nodes h') -> n_rc h' m = rnd p -> m = n) /\
    exists i q, i <= j /\ nth_error (all_pts (zones_of evs)) i = Some q /\ n_p h' n = q /\ rnd q = rnd p /\
      forall k q', k < i -> nth_error (all_pts (zones_of evs)) k = Some q' -> rnd q' <> rnd p.
Proof. exact @load_representative_main. Qed.
Print Assumptions C04_representative.

Example C04_example :
  file_form [] (file_lines two_zones) [ETitle (lit "plate"); EZone zoneA; EZone zoneB] /\
  (let '(r, h) := load true two_zones empty_heap in r = Ok tt /\
   map (n_p h) (g_nodes h) = [(0, 0, 0); (1, 0, 0); (0, 1, 0); (-1, -1, 0); (1, 1, 0)]%Z) /\
  (let '(r, h) := load false two_zones empty_heap in r = Ok tt /\
   map (n_p h) (g_nodes h) = [(0, 0, 0); (1, 0, 0); (0, 1, 0); (-1, -1, 0); (1, 0, 0); (0, 1, 0); (1, 1, 0)]%Z).
Proof. split; [exact two_zones_form|]. vm_compute. repeat split. Qed.

(** C05.  An accepted file is well-formed; load always terminates. *)
Theorem C05_accepts_only_well_formed : forall {F : FloatOps} merge text h h',
  load merge text h = (Ok tt, h') ->
  exists evs, file_form [] (file_lines text) evs /\
    forall zr, In zr (zones_of evs) -> zone_rec_ok zr.
Proof. exact @load_form_main. Qed.
Print Assumptions C05_accepts_only_well_formed.

Theorem C05_terminates : forall {F : FloatOps} merge text h, fst (load merge text h) <> Raise EOutOfFuel.
Proof. exact @nofuel_load. Qed.
Print Assumptions C05_terminates.

(** C05.  The entries of the connectivity lines need not be between 1 and NODES: the
    entry 0 is accepted and means the last node. *)
Theorem C05_entry_range_refuted : exists (F : FloatOps) text h h',
  load true text h = (Ok tt, h') /\
  exists line, In line (file_lines text) /\ line = lit "1 2 0" ++ [nl] /\
    map (n_p h') (flat_map (f_nodes h') (g_faces h')) = map (n_p h') (g_nodes h').
Proof. exact zero_entry_main. Qed.
Print Assumptions C05_entry_range_refuted.

Example C05_example : exists h', load true two_zones empty_heap = (Ok tt, h').
Proof. eexists. apply ok_pair. vm_compute. reflexivity. Qed.

(** C06.  Loading into a used grid object and into a new one gives the same outcome
    and the same state, but for the name of the grid and the number of border nodes. *)
Theorem C06_load_replaces_contents : forall {F : FloatOps} merge text h,
  fst (load merge text h) = fst (load merge text (new_grid h)) /\
  core (snd (load merge text h)) = core (snd (load merge text (new_grid h))).
Proof. exact @load_fresh. Qed.
Print Assumptions C06_load_replaces_contents.

(** C06.  When the file has a title, the name is the same, too. *)
Theorem C06_title_replaced : forall {F : FloatOps} merge text h h' evs t,
  load merge text h = (Ok tt, h') -> file_form [] (file_lines text) evs -> title_in evs = Some t ->
  g_name h' = t /\ g_name (snd (load merge text (new_grid h))) = t.
Proof. exact @load_title_main. Qed.
Print Assumptions C06_title_replaced.

(** C06.  In general the claim is false: the name and the number of border nodes
    survive. *)
Theorem C06_load_replaces_refuted : exists (F : FloatOps) merge text h,
  fst (load merge text h) = Ok tt /\ fst (load merge text (new_grid h)) = Ok tt /\
  g_name (snd (load merge text h)) <> g_name (snd (load merge text (new_grid h))) /\
  g_nborder (snd (load merge text h)) <> g_nborder (snd (load merge text (new_grid h))).
Proof. exact load_keeps_name_main. Qed.
Print Assumptions C06_load_replaces_refuted.

Example C06_example :
  let h := set_g_name (snd (load true no_title empty_heap)) (lit "old") in
  fst (load true two_zones h) = Ok tt /\ g_name (snd (load true two_zones h)) = lit "plate" /\
  length (g_faces (snd (load true two_zones h))) = 3 /\
  title_in (F := ZOps) [ETitle (lit "plate"); EZone zoneA; EZone zoneB] = Some (lit "plate").
Proof. vm_compute. repeat split. Qed.

(** C07.  The file written by store: the head, then for every zone its lines; every
    connectivity entry of a zone is between 1 and the number of nodes of this zone, and
    the node written at this place is the corner of the face ([zone_lines]). *)
Theorem C07_stored_connectivity : forall {F : FloatOps} h,
  faithful_numbers -> grid_ok h -> zone_lists_ok h -> numbered h -> writable h ->
  exists text blocks, store h = Ok text /\
    file_lines text = head_lines h (grid_vars h) ++ concat blocks /\
    Forall2 (zone_lines h (grid_vars h)) (g_zones h) blocks.
Proof. exact @store_ok. Qed.
Print Assumptions C07_stored_connectivity.

(** C07.  A grid without faces cannot be stored. *)
Theorem C07_no_faces : forall {F : FloatOps} h, g_faces h = [] -> store h = Raise EIndexError.
Proof. exact @store_empty. Qed.
Print Assumptions C07_no_faces.

Example C07_example : store plate = Ok (text_of
  (["# crys-gsu"; "TITLE=""plate"""; "VARIABLES=""X"", ""Y"", ""Z"", ""T"", ""Hw"""]%string ++
   zone_head "A" "4" "2" ++
   ["0 1 0 -1 "; "0 0 1 -1 "; "0 0 0 0 "; "7 8 "; "70 80 "; "1 2 3"; "1 3 4"]%string ++
   zone_head "B" "3" "1" ++
   ["1 0 1 "; "0 1 1 "; "0 0 0 "; "9 "; "90 "; "1 2 3"]%string)).
Proof. vm_compute. reflexivity. Qed.

(** C08 (load).  After load the zones list exactly the nodes and edges of their faces,
    in grid order. *)
Theorem C08_zone_lists_after_load : forall {F : FloatOps} merge text h h',
  load merge text h = (Ok tt, h') -> zone_lists_ok h'.
Proof. exact @load_lists_main. Qed.
Print Assumptions C08_zone_lists_after_load.

Example C08_load_example :
  let '(r, h) := load true two_zones empty_heap in
  r = Ok tt /\ map (z_nodes h) (g_zones h) = [[0; 1; 2; 3]; [1; 2; 6]] /\
  map (z_edges h) (g_zones h) = [[0; 1; 2; 3; 4]; [2; 5; 6]].
Proof. vm_compute. repeat split. Qed.
