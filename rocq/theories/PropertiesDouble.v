(** Properties of the numbers of the grid files as IEEE doubles: C122, C123.

    Model: Double.v, GridIO.v, GridModel.v, Heap.v, Driver.v, Stamps.v.  Specification vocabulary: DoubleSpec.v, StoreSpec.v, FileSpec.v,
    GridSpec.v, RestartSpec.v, StampsSpec.v. *)

From Coq Require Import ZArith Reals Ascii String Bool List Floats.SpecFloat.
From Flocq Require Import Core.Core IEEE754.BinarySingleNaN.
From Verif Require Import Py Utils UtilsSpec Heap GridModel GridSpec GridIO FileSpec StoreSpec RoundTrip LoadProps DriverSpec CycleSpec SolverSpec Stamps StampsSpec RestartSpec RestartProofs
  Samples SamplesIO Double DoubleSpec DoubleProofs DoubleMore DoubleCases.
Import ListNotations.
Open Scope list_scope.
Open Scope nat_scope.

(* ================================================================== *)
(** C122.  A decimal notation in a file, with blanks around it, is read as the double nearest to it. *)
Theorem C122_read : forall neg m k t l r, decimal_text neg m k t -> forallb is_space l = true -> forallb is_space r = true ->
  exists v : number, @prs DoubleOps (l ++ t ++ r) = Some v /\ nearest_double neg (IZR m * ten k) (proj1_sig v).
Proof. exact read_nearest. Qed.
Print Assumptions C122_read.

(** C122.  A finite number is written as a decimal notation with 19 significant digits, which differs from the number by at most
    half a unit of the last digit. *)
Theorem C122_written : forall v : number, is_finite (proj1_sig v) = true -> exists m k, decimal_text (Bsign (proj1_sig v)) m k (@fmt DoubleOps v) /\
  ((B2R (proj1_sig v) <> 0)%R -> (10 ^ 18 <= m < 10 ^ 19)%Z) /\ (Rabs (signed (Bsign (proj1_sig v)) (IZR m * ten k) - B2R (proj1_sig v)) <= / 2 * ten k)%R.
Proof. exact written_number. Qed.
Print Assumptions C122_written.

(** C122.  Every double that is not a nan is read back unchanged from the text it is written as. *)
Theorem C122_read_back : forall v : number, @prs DoubleOps (@fmt DoubleOps v) = Some v /\ @fmt DoubleOps v <> [] /\
  forall c, In c (@fmt DoubleOps v) -> is_space c = false.
Proof. exact double_faithful. Qed.
Print Assumptions C122_read_back.

(** C122.  Hence a grid with coordinates and values of any doubles but nan is stored and loaded without a change. *)
Theorem C122_store_load : forall h h0 : @heap DoubleOps, grid_ok h -> zone_lists_ok h -> numbered h -> nodes_merged h -> writable h ->
  exists text h', store h = Ok text /\ load true text h0 = (Ok tt, h') /\ same_contents (grid_vars h) h h' /\
    grid_ok h' /\ zone_lists_ok h' /\ nodes_merged h' /\ numbered_in_order h'.
Proof. exact (fun h h0 => @round_trip DoubleOps h h0 double_faithful). Qed.
Print Assumptions C122_store_load.

(** C122.  The comparison of doubles is an order. *)
Theorem C122_order : @order_ok DoubleOps.
Proof. exact double_order. Qed.
Print Assumptions C122_order.

(** C122.  Hence with doubles a computation can be continued from merged files any number of times, and the points do not drift:
    the triangles are at the very same points as at first. *)
Theorem C122_no_drift : forall stem text tms stem' text', @continued DoubleOps stem text tms stem' text' ->
  forall nm ts evs (h hl : @heap DoubleOps), get_filename_and_timestamp_pair stem = (nm, ts) ->
  @file_form DoubleOps [] (file_lines text) evs -> @no_degenerate DoubleOps (@zones_of DoubleOps evs) -> @faces_in DoubleOps (@zones_of DoubleOps evs) <> 0 -> @load DoubleOps true text (new_grid h) = (Ok tt, hl) ->
  get_filename_and_timestamp_pair stem' = (base_after (length tms) nm, last tms ts) /\
  exists evs', @file_form DoubleOps [] (file_lines text') evs' /\ @no_degenerate DoubleOps (@zones_of DoubleOps evs') /\ @faces_in DoubleOps (@zones_of DoubleOps evs') = @faces_in DoubleOps (@zones_of DoubleOps evs) /\
    forall h1 : @heap DoubleOps, exists h2, @load DoubleOps true text' (new_grid h1) = (Ok tt, h2) /\ triangles h2 = triangles hl /\ zone_table h2 = zone_table hl /\ g_name h2 = g_name hl.
Proof. exact (fun stem text tms stem' text' C nm ts evs h hl => @restart DoubleOps stem text tms stem' text' C nm ts evs h hl double_faithful double_order). Qed.
Print Assumptions C122_no_drift.

(** The decimal notation 0.1, the least double and the greatest one. *)
Example C122_example : decimal_text false 1 (-1) (lit "0.1") /\ @fmt DoubleOps (d (lit "0.1")) = lit "1.000000000000000056e-01" /\
  @fmt DoubleOps (d (lit "5e-324")) = lit "4.940656458412465442e-324" /\ @fmt DoubleOps (d (lit "-1.7976931348623157e308")) = lit "-1.797693134862315708e+308" /\
  @file_form DoubleOps [] (file_lines tiny) [EZone tinyA; EZone tinyB] /\
  exists h', @load DoubleOps true tiny (new_grid empty_heap) = (Ok tt, h') /\ length (g_nodes h') = 4.
Proof.
  split.
  { exists [], (lit "0"), (lit "."), (lit "1"), [], 0%Z. split; [reflexivity|]. split; [right; split; [left; reflexivity|reflexivity]|]. split; [reflexivity|].
    split; [discriminate|]. split; [left; reflexivity|]. split; [left; split; reflexivity|]. split; reflexivity. }
  split; [vm_compute; reflexivity|]. split; [vm_compute; reflexivity|]. split; [vm_compute; reflexivity|]. split; [exact tiny_form|].
  destruct tiny_loads as (h' & L & N & _). exists h'. split; assumption.
Qed.

(* ================================================================== *)
(** C123.  The rounded coordinate of a node is the double nearest to the multiple of 10 ^ -10 nearest to the coordinate. *)
Theorem C123_rounding : forall x : double, is_finite x = true ->
  (Rabs (IZR (units x) - B2R x * ten 10) <= / 2)%R /\ is_finite (round10 x) = true /\ nearest_double (Bsign x) (IZR (Z.abs (units x)) * ten (-10)) (round10 x).
Proof. exact rounding. Qed.
Print Assumptions C123_rounding.

(** C123.  Two finite coordinates are the same for the merging of nodes exactly if the nearest multiples of 10 ^ -10 are the same: that
    the multiples are no doubles never joins two of them and never separates one. *)
Theorem C123_same : forall x y : number, is_finite (proj1_sig x) = true -> is_finite (proj1_sig y) = true ->
  (@rnd1 DoubleOps x = @rnd1 DoubleOps y <-> units (proj1_sig x) = units (proj1_sig y)).
Proof. exact (fun x y => round_iff (proj1_sig x) (proj1_sig y)). Qed.
Print Assumptions C123_same.

(** C123.  Rounding again changes nothing. *)
Theorem C123_again : forall x : double, is_finite x = true -> units (round10 x) = units x.
Proof. exact round_again. Qed.
Print Assumptions C123_again.

(** C123.  A point of a loaded file is represented by exactly one node: it is at the first point of the file with the same nearest
    multiples of 10 ^ -10, hence no coordinate of the point is moved by more than 10 ^ -10. *)
Theorem C123_merging : forall text h h' evs j p, @load DoubleOps true text h = (Ok tt, h') -> @file_form DoubleOps [] (file_lines text) evs ->
  nth_error (all_pts (zones_of evs)) j = Some p -> finite_pt p ->
  exists n, In n (g_nodes h') /\ finite_pt (n_p h' n) /\ same_units (n_p h' n) p /\ within (ten (-10)) (n_p h' n) p /\
    (forall m, In m (g_nodes h') -> finite_pt (n_p h' m) -> same_units (n_p h' m) p -> m = n) /\
    exists i, i <= j /\ nth_error (all_pts (zones_of evs)) i = Some (n_p h' n) /\
      forall k q, k < i -> nth_error (all_pts (zones_of evs)) k = Some q -> finite_pt q -> ~ same_units q p.
Proof. exact merging. Qed.
Print Assumptions C123_merging.

(** C123.  There is no distance within which points are surely merged: neighbouring doubles may be kept apart. *)
Theorem C123_near_refuted : exists x y : number, is_finite (proj1_sig x) = true /\ is_finite (proj1_sig y) = true /\
  (0 < Rabs (B2R (proj1_sig x) - B2R (proj1_sig y)) < ten (-26))%R /\ @rnd1 DoubleOps x <> @rnd1 DoubleOps y /\ units (proj1_sig x) <> units (proj1_sig y).
Proof. exact neighbours_main. Qed.
Print Assumptions C123_near_refuted.

(** A file with points 0 and 10 ^ -11, which become one node at 0. *)
Example C123_example : @file_form DoubleOps [] (file_lines tiny) [EZone tinyA; EZone tinyB] /\
  (exists p, nth_error (all_pts [tinyA; tinyB]) 3 = Some p /\ p = (d (lit "1e-11"), d (lit "0"), d (lit "0")) /\ finite_pt p) /\
  exists h', @load DoubleOps true tiny (new_grid empty_heap) = (Ok tt, h') /\ length (g_nodes h') = 4 /\
    map (fun n => map (fun x => @fmt DoubleOps x) (let '(x, y, z) := n_p h' n in [x; y; z])) (firstn 1 (g_nodes h')) =
      [[lit "0.000000000000000000e+00"; lit "0.000000000000000000e+00"; lit "0.000000000000000000e+00"]].
Proof.
  split; [exact tiny_form|]. split; [|exact tiny_loads]. eexists. split; [reflexivity|]. split; [reflexivity|]. split; [|split]; vm_compute; reflexivity.
Qed.
