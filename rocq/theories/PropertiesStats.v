(** Properties of the line about the edges printed by Grid.print_info: C127, and of the line about the distribution of faces: C128.

    Model: DoubleStats.v, DoubleDistrib.v, Zam.v, Info.v, Double.v.  Specification vocabulary: DoubleStatsSpec.v, DoubleSpec.v, ZamSpec.v. *)

From Coq Require Import ZArith Reals Ascii String Bool List.
From Flocq Require Import IEEE754.BinarySingleNaN.
From Verif Require Import Py Heap GridModel GridSpec Zam ZamSpec Samples Double DoubleSpec DoubleStats DoubleStatsSpec DoubleStatsProofs DoubleStatsCases Info InfoCases DoubleDistrib DoubleDistribProofs.
Import ListNotations.
Open Scope list_scope.
Open Scope nat_scope.

(** C127.  The line shows the numbers of border, inner and cross edges.  Each percentage has two places after the point and is, of all such numbers, as near as
    possible to the exact share; the three percentages add up to 100 with an error of one hundredth at most.  (Up to 2^38 edges.) *)
Theorem C127_line : forall {F : FloatOps} h es zs a, NoDup zs -> edges_in_zones h es zs -> zam_build h es zs = Ok a -> es <> [] -> (Z.of_nat (length es) <= 2 ^ 38)%Z ->
  exists b i c mb mi mc tb ti tc,
    counts (fun e => is_border h e = true) es b /\ counts (fun e => is_inner h e = Ok true) es i /\ counts (fun e => is_cross h e = Ok true) es c /\
    edges_statistics_string a = Ok (edges_line b i c tb ti tc) /\
    (two_places mb tb /\ two_places mi ti /\ two_places mc tc) /\
    (nearest_share (Z.of_nat b) (Z.of_nat (length es)) mb /\ nearest_share (Z.of_nat i) (Z.of_nat (length es)) mi /\ nearest_share (Z.of_nat c) (Z.of_nat (length es)) mc) /\
    (9999 <= mb + mi + mc <= 10001)%Z.
Proof. exact @line_main. Qed.
Print Assumptions C127_line.

(** C127.  Without edges there is no line but ZeroDivisionError. *)
Theorem C127_empty : forall {F : FloatOps} h zs a, NoDup zs -> zam_build h [] zs = Ok a -> edges_statistics_string a = Raise EZeroDivisionError.
Proof. exact @line_empty. Qed.
Print Assumptions C127_empty.

(** C127.  The percentage before printing is the double nearest to the exact share. *)
Theorem C127_percentage : forall k n, (0 <= k <= n)%Z -> (0 < n <= 2 ^ 46)%Z ->
  is_finite (percentage k n) = true /\ B2R (percentage k n) = rounded (100 * IZR k / IZR n) /\ Bsign (percentage k n) = false.
Proof. exact percentage_main. Qed.
Print Assumptions C127_percentage.

(** C127.  None is printed as 0.00, all as 100.00. *)
Theorem C127_ends : forall n, (0 < n <= 2 ^ 38)%Z -> write_hundredths (percentage 0 n) = lit "0.00" /\ write_hundredths (percentage n n) = lit "100.00".
Proof. exact share_ends. Qed.
Print Assumptions C127_ends.

(** C127.  "0.00% means that there are none, and 100.00% that there are no others" is false. *)
Theorem C127_ends_refuted : exists k n, (0 < k < n)%Z /\ write_hundredths (percentage k n) = lit "0.00" /\ write_hundredths (percentage (n - k) n) = lit "100.00".
Proof. exact hidden_main. Qed.
Print Assumptions C127_ends_refuted.

(** C127.  "The printed percentages add up to 100" is false: those of this grid add up to 100.01. *)
Theorem C127_sum_refuted : exists (h : @heap ZOps) a b i c mb mi mc tb ti tc, grid_ok h /\ zam_build h (g_edges h) (g_zones h) = Ok a /\
  edges_statistics_string a = Ok (edges_line b i c tb ti tc) /\ (two_places mb tb /\ two_places mi ti /\ two_places mc tc) /\ (mb + mi + mc <> 10000)%Z.
Proof. exact sum_main. Qed.
Print Assumptions C127_sum_refuted.

(** The line of the grid of six triangles in three zones. *)
Example C127_example : exists a, zam_build strip6 (g_edges strip6) (g_zones strip6) = Ok a /\ NoDup (g_zones strip6) /\ edges_in_zones strip6 (g_edges strip6) (g_zones strip6) /\
  g_edges strip6 <> [] /\ (Z.of_nat (length (g_edges strip6)) <= 2 ^ 38)%Z /\
  edges_statistics_string a = Ok (lit "edges stats: 8 border (61.54%), 3 inner (23.08%), 2 cross (15.38%)").
Proof. exact strip6_line. Qed.

(* ================================================================== *)
(** C128.  The line shows the number of faces of the largest zone and by how many percents it exceeds the mean number of faces per zone.  Though computed with four
    roundings, the percentage has two places, no sign, and is as near as possible to the exact one; it is 0.00 if all zones have the same number of faces.  (If the
    number of faces times the number of zones is at most 2^35.) *)
Theorem C128_line : forall {F : FloatOps} h, grid_ok h -> zone_lists_ok h -> g_faces h <> [] -> (Z.of_nat (length (g_faces h)) * Z.of_nat (length (g_zones h)) <= 2 ^ 35)%Z ->
  exists mx m t, (exists z, In z (g_zones h) /\ length (z_faces h z) = mx) /\ (forall z, In z (g_zones h) -> length (z_faces h z) <= mx) /\
    distribution_line h = Ok (deviation_line mx t) /\ two_places m t /\
    nearest_share (Z.of_nat mx * Z.of_nat (length (g_zones h)) - Z.of_nat (length (g_faces h))) (Z.of_nat (length (g_faces h))) m /\
    ((forall z y, In z (g_zones h) -> In y (g_zones h) -> length (z_faces h z) = length (z_faces h y)) -> t = lit "0.00").
Proof. exact @distribution_line_main. Qed.
Print Assumptions C128_line.

(** C128.  "0.00% means that all zones have the same number of faces" is false: 10001 and 10000 faces in two zones. *)
Theorem C128_even_refuted : exists mx fc zc, (0 < zc)%Z /\ (fc < mx * zc)%Z /\ (mx <= fc)%Z /\ write_hundredths (deviation mx fc zc) = lit "0.00".
Proof. exact uneven_main. Qed.
Print Assumptions C128_even_refuted.

Example C128_example : grid_ok strip6 /\ zone_lists_ok strip6 /\ g_faces strip6 <> [] /\ (Z.of_nat (length (g_faces strip6)) * Z.of_nat (length (g_zones strip6)) <= 2 ^ 35)%Z /\
  distribution_line strip6 = Ok (lit "  ~ max zone faces 3, faces distribution deviation : 50.00%") /\
  distribution_line strip3 = Ok (lit "  ~ max zone faces 2, faces distribution deviation : 33.33%").
Proof.
  split; [exact strip6_ok|]. split; [exact strip6_lists|]. split; [exact strip6_faces|]. split; [vm_compute; discriminate|]. split; vm_compute; reflexivity.
Qed.
