(** C105-C107: counters, print_info, adjacent edges, arrays of zones. *)

From Coq Require Import ZArith NArith QArith Ascii String Bool Lia List.
From Verif Require Import Py Heap GridModel GridSpec Zam ZamSpec Exchange Info InfoSpec InfoProofs InfoArrays InfoCases Samples SamplesStore InfoMore.
Import ListNotations.
Open Scope list_scope.
Open Scope nat_scope.

(* ================================================================ *)
(** ** C105: the numbers of print_info *)

(** C105.  For a grid with a face print_info works with any flags and prints the four counts. *)
Theorem C105_works : forall {F : FloatOps} h es fs ms, grid_ok h -> zone_lists_ok h -> g_faces h <> [] ->
  exists s, print_info es fs ms h = Ok s /\ sh_counts s = (length (g_nodes h), length (g_edges h), length (g_faces h), length (g_zones h)) /\
    (es = true <-> sh_edges s <> None) /\ (fs = true <-> sh_faces s <> None) /\ (ms = true <-> sh_matrix s <> None).
Proof. exact @info_works. Qed.
Print Assumptions C105_works.

(** C105.  For a grid without faces the statistics divide by zero. *)
Theorem C105_empty : forall {F : FloatOps} h es fs ms, grid_ok h -> zone_lists_ok h -> g_faces h = [] ->
  if es || fs then print_info es fs ms h = Raise EZeroDivisionError
  else if ms then (exists s, print_info es fs ms h = Ok s) \/ print_info es fs ms h = Raise EValueError
  else exists s, print_info es fs ms h = Ok s.
Proof. exact @info_empty. Qed.
Print Assumptions C105_empty.

(** C105.  Every zone: three times the faces plus the outer edges is two times the edges; the outer
    edges are those that do not have both faces in the zone. *)
Theorem C105_zone : forall {F : FloatOps} h z, grid_ok h -> zone_lists_ok h -> In z (g_zones h) ->
  exists oc, outer_edges_count h z = Ok oc /\ counts (fun e => ~ inside_zone h z e) (z_edges h z) oc /\
    3 * zone_faces_count h z + oc = 2 * zone_edges_count h z.
Proof. exact @zone_counts. Qed.
Print Assumptions C105_zone.

(** C105.  The nodes and edges counted for a zone are those of its faces, each once. *)
Theorem C105_zone_counters : forall {F : FloatOps} h z, grid_ok h -> zone_lists_ok h -> In z (g_zones h) ->
  counts (fun n => exists f, In f (z_faces h z) /\ In n (f_nodes h f)) (g_nodes h) (zone_nodes_count h z) /\
  counts (fun e => exists f, In f (z_faces h z) /\ In e (f_edges h f)) (g_edges h) (zone_edges_count h z).
Proof. exact @zone_counters. Qed.
Print Assumptions C105_zone_counters.

(** C105.  The whole grid: three times the faces is the border edges plus two times the others. *)
Theorem C105_grid : forall {F : FloatOps} h b k, topo_ok h -> counts (fun e => length (e_faces h e) = 1) (g_edges h) b ->
  counts (fun e => length (e_faces h e) = 2) (g_edges h) k -> 3 * length (g_faces h) = b + 2 * k.
Proof. exact @handshake. Qed.
Print Assumptions C105_grid.

(** C105.  The faces of the zones are all the faces. *)
Theorem C105_faces : forall {F : FloatOps} h, grid_ok h -> faces_count_in_zones h = faces_count h.
Proof. exact @faces_in_zones. Qed.
Print Assumptions C105_faces.

(** C105.  The distribution: the largest zone, one line for every zone, and a deviation that is never
    below zero and is zero exactly if all zones have the same number of faces. *)
Theorem C105_distribution : forall {F : FloatOps} h lines m d, grid_ok h -> distribution h = Ok (lines, m, d) ->
  (exists z, In z (g_zones h) /\ length (z_faces h z) = m) /\ (forall z, In z (g_zones h) -> length (z_faces h z) <= m) /\
  (0 <= d)%Q /\ (d == 0 <-> forall z y, In z (g_zones h) -> In y (g_zones h) -> length (z_faces h z) = length (z_faces h y))%Q /\
  (d * inject_Z (Z.of_nat (length (g_faces h))) == 100 * (inject_Z (Z.of_nat m) * inject_Z (Z.of_nat (length (g_zones h))) - inject_Z (Z.of_nat (length (g_faces h)))))%Q /\
  Forall2 (fun z l => exists oc, outer_edges_count h z = Ok oc /\ l = (z_name h z, length (z_faces h z), oc)) (g_zones h) lines.
Proof. exact @distribution_ok. Qed.
Print Assumptions C105_distribution.

(** Six faces in three zones of two, three and one face: the largest has half more than two. *)
Example C105_example : grid_ok strip6 /\ zone_lists_ok strip6 /\ g_faces strip6 <> [] /\
  match distribution strip6 with Ok (lines, m, d) => lines = [(lit "a", 2, 4); (lit "b", 3, 5); (lit "c", 1, 3)] /\ m = 3 /\ (d == 50)%Q | _ => False end.
Proof. split; [exact strip6_ok|]. split; [exact strip6_lists|]. split; [exact strip6_faces|]. vm_compute. auto. Qed.

Example C105_example_empty : grid_ok (@empty_heap ZOps) /\ zone_lists_ok (@empty_heap ZOps) /\ g_faces (@empty_heap ZOps) = [].
Proof. exact empty_ok. Qed.

(* ================================================================ *)
(** ** C106: adjacent edges *)

(** C106.  Two edges of a grid are adjacent if and only if they have a common node, in either order;
    two different adjacent edges have exactly one common node. *)
Theorem C106_common_node : forall {F : FloatOps} h e1 e2, topo_ok h -> In e1 (g_edges h) -> In e2 (g_edges h) ->
  exists b, is_adjacent_with h e1 e2 = Ok b /\ is_adjacent_with h e2 e1 = Ok b /\
    (b = true <-> exists n, In n (e_nodes h e1) /\ In n (e_nodes h e2)) /\
    (b = true -> e1 <> e2 -> exists n, forall m, In m (e_nodes h e1) /\ In m (e_nodes h e2) <-> m = n).
Proof. exact @edges_adjacent. Qed.
Print Assumptions C106_common_node.

Theorem C106_face : forall {F : FloatOps} h f e1 e2, topo_ok h -> In f (g_faces h) -> In e1 (f_edges h f) -> In e2 (f_edges h f) ->
  is_adjacent_with h e1 e2 = Ok true.
Proof. exact @face_edges_adjacent. Qed.
Print Assumptions C106_face.

Example C106_example : topo_ok strip6 /\ In 0 (g_edges strip6) /\ In 12 (g_edges strip6) /\
  is_adjacent_with strip6 0 1 = Ok true /\ is_adjacent_with strip6 0 12 = Ok false.
Proof. split; [exact (proj1 strip6_ok)|]. split; [vm_compute; tauto|]. split; [vm_compute; tauto|]. vm_compute. auto. Qed.

(* ================================================================ *)
(** ** C107: arrays of a zone *)

(** C107.  The list of connections has a row for every face of the zone: the numbers of its nodes. *)
Theorem C107_rows : forall {F : FloatOps} h z, grid_ok h -> numbered_in_order h -> In z (g_zones h) ->
  exists rows, connectivity_list h z = Ok rows /\ Forall2 (fun f row => row = map (n_glo h) (f_nodes h f)) (z_faces h z) rows.
Proof. exact @connectivity_ok. Qed.
Print Assumptions C107_rows.

(** C107.  Full claim: these numbers are places in the array of coordinates of the same zone.  It
    holds if the grid has one zone and every node has a face. *)
Theorem C107_places_partial : forall {F : FloatOps} h z, grid_ok h -> zone_lists_ok h -> numbered_in_order h -> g_zones h = [z] -> (forall n, In n (g_nodes h) -> n_faces h n <> []) ->
  forall f n, In f (z_faces h z) -> In n (f_nodes h f) -> nth_error (coords_array h z) (Z.to_nat (n_glo h n)) = Some (n_p h n).
Proof. exact @index_ok. Qed.
Print Assumptions C107_places_partial.

(** C107.  It is false for a grid with two zones: the array of the second zone has no such place. *)
Theorem C107_places_refuted : exists (F : FloatOps) h z f n, grid_ok h /\ zone_lists_ok h /\ numbered_in_order h /\ In z (g_zones h) /\ In f (z_faces h z) /\ In n (f_nodes h f) /\
  nth_error (coords_array h z) (Z.to_nat (n_glo h n)) = None.
Proof.
  destruct plate_out as (z & f & n & K). exists ZOps, plate, z, f, n. destruct plate_ok as (G & L & _).
  exact (conj G (conj L (conj plate_in_order K))).
Qed.
Print Assumptions C107_places_refuted.

(** C107.  The array of variables: identifiers, eight columns with the values of the faces (zero for
    a value that is absent) and three columns of zeros. *)
Theorem C107_variables : forall {F : FloatOps} h z, Forall2 (fun f row => fst row = f_glo h f /\ length (snd row) = 11 /\
    (forall i name, nth_error [lit "T"; lit "Hw"; lit "Hi"; lit "HTC"; lit "Beta"] i = Some name ->
       nth_error (snd row) i = Some (match dget str_dec (f_data h f) name with Some v => v | None => val0 end)) /\
    (forall i name, nth_error [lit "TauX"; lit "TauY"; lit "TauZ"] i = Some name ->
       nth_error (snd row) (7 + i) = Some (match dget str_dec (f_data h f) name with Some v => v | None => val0 end)) /\
    nth_error (snd row) 5 = Some val0 /\ nth_error (snd row) 6 = Some val0 /\ nth_error (snd row) 10 = Some val0) (z_faces h z) (variables_array h z).
Proof. exact @variables_ok. Qed.
Print Assumptions C107_variables.

(** C107.  So the value MImp2 of a face is not in the array. *)
Theorem C107_variables_refuted : exists (F : FloatOps) h z f v row, In f (z_faces h z) /\ dget str_dec (f_data h f) (lit "MImp2") = Some v /\
  variables_array h z = [row] /\ ~ In v (snd row).
Proof.
  destruct wet_lost as (K1 & K2 & row & K3 & K4). exists ZOps, wet, 0, 0, 5%Z, row. exact (conj K2 (conj K1 (conj K3 K4))).
Qed.
Print Assumptions C107_variables_refuted.

Theorem C107_variable : forall {F : FloatOps} h z name, Forall2 (fun f v => v = match dget str_dec (f_data h f) name with Some v => v | None => val0 end) (z_faces h z) (get_variable h z name).
Proof. exact @variable_ok. Qed.
Print Assumptions C107_variable.

Example C107_example : grid_ok flat6 /\ zone_lists_ok flat6 /\ numbered_in_order flat6 /\ (exists z, g_zones flat6 = [z]) /\ (forall n, In n (g_nodes flat6) -> n_faces flat6 n <> []) /\
  connectivity_list flat6 0 = Ok [[0; 1; 2]; [1; 2; 3]; [2; 3; 4]; [3; 4; 5]; [4; 5; 6]; [5; 6; 7]]%Z.
Proof.
  split; [exact flat6_ok|]. split; [exact flat6_lists|]. split; [exact flat6_order|]. split; [exact flat6_one|]. split; [exact flat6_used|]. vm_compute. reflexivity.
Qed.
