(** Property theorems about the zones adjacency matrix (C19 - C21). *)

From Coq Require Import ZArith NArith QArith Bool Lia List.
From Verif Require Import Py Heap GridModel GridSpec Zam ZamSpec ZamProofs Samples.
Import ListNotations.
Open Scope list_scope.
Open Scope nat_scope.

(** C19.  For edges with one or two faces, all in the listed (distinct) zones, the
    matrix is built; it is square with one more line than there are zones,
    symmetric, with a zero corner; entry (i,j) counts the edges joining zones i and
    j (also for i = j), entry (i,zc) the edges whose only face is in zone i. *)
Theorem C19_matrix_counts_edges : forall {F : FloatOps} h es zs,
  NoDup zs -> edges_in_zones h es zs ->
  exists a, zam_build h es zs = Ok a /\ zc a = length zs /\
    (forall i j, entry (zm a) i j = entry (zm a) j i) /\
    (forall i j, entry (zm a) i j <> None <-> i <= length zs /\ j <= length zs) /\
    entry (zm a) (length zs) (length zs) = Some 0 /\
    (forall i j z y, nth_error zs i = Some z -> nth_error zs j = Some y ->
       exists k, entry (zm a) i j = Some k /\ counts (joins h z y) es k) /\
    (forall i z, nth_error zs i = Some z ->
       exists k, entry (zm a) i (length zs) = Some k /\ counts (bounds h z) es k).
Proof. exact @zam_main. Qed.
Print Assumptions C19_matrix_counts_edges.

(** C19.  An edge with no face or with more than two faces makes it fail. *)
Theorem C19_bad_edge_raises : forall {F : FloatOps} h es zs e, In e es ->
  (length (e_faces h e) = 0 \/ 3 <= length (e_faces h e)) -> exists x, zam_build h es zs = Raise x.
Proof. exact @zam_raises. Qed.
Print Assumptions C19_bad_edge_raises.

(** C19.  The edges and zones of a consistent grid meet the hypotheses. *)
Theorem C19_grids_qualify : forall {F : FloatOps} h, grid_ok h ->
  NoDup (g_zones h) /\ edges_in_zones h (g_edges h) (g_zones h).
Proof. exact @grid_edges_in_zones. Qed.
Print Assumptions C19_grids_qualify.

Example C19_example : grid_ok strip6 /\
  zam_build strip6 (g_edges strip6) (g_zones strip6) =
  Ok (mkZam 3 [[1; 1; 0; 3]; [1; 2; 1; 3]; [0; 1; 0; 2]; [3; 3; 2; 0]]).
Proof. split; [exact strip6_ok|]. vm_compute. reflexivity. Qed.

(** C20.  The statistics are the numbers of border, inner and cross edges (as
    classified by the edge predicates); they add up to the number of edges, and the
    percentages are the corresponding shares and add up to 100.  Without edges the
    query fails with ZeroDivisionError. *)
Theorem C20_edge_statistics : forall {F : FloatOps} h es zs a,
  NoDup zs -> edges_in_zones h es zs -> zam_build h es zs = Ok a ->
  exists b i c,
    counts (fun e => is_border h e = true) es b /\
    counts (fun e => is_inner h e = Ok true) es i /\
    counts (fun e => is_cross h e = Ok true) es c /\
    b + i + c = length es /\
    (es <> [] -> exists pb pi pc,
       edges_statistics a = Ok ((length es, b, i, c), (pb, pi, pc)) /\
       (pb == inject_Z (100 * Z.of_nat b) / inject_Z (Z.of_nat (length es)) /\
        pi == inject_Z (100 * Z.of_nat i) / inject_Z (Z.of_nat (length es)) /\
        pc == inject_Z (100 * Z.of_nat c) / inject_Z (Z.of_nat (length es)) /\
        pb + pi + pc == 100)%Q) /\
    (es = [] -> edges_statistics a = Raise EZeroDivisionError).
Proof. exact @statistics_main. Qed.
Print Assumptions C20_edge_statistics.

Example C20_example : grid_ok strip6 /\
  match zam_build strip6 (g_edges strip6) (g_zones strip6) with
  | Ok a => match edges_statistics a with
            | Ok (t, (pb, pi, pc)) => t = (13, 8, 3, 2) /\ (pb == 800 # 13)%Q
            | _ => False
            end
  | _ => False
  end.
Proof. split; [exact strip6_ok|]. vm_compute. auto. Qed.

(** C21.  Queries about zone number i: the count of its cross edges (edges with two
    faces in different zones, one of them in zone i), the count of its neighbour
    zones, and the length of the longest border between two different zones (zero
    when there is none). *)
Theorem C21_queries : forall {F : FloatOps} h es zs a i z,
  NoDup zs -> edges_in_zones h es zs -> zam_build h es zs = Ok a ->
  nth_error zs i = Some z ->
  (exists k, zone_cross_edges_count a (Z.of_nat i) = Ok k /\
     counts (fun e => is_cross h e = Ok true /\
                      exists f, In f (e_faces h e) /\ f_zone h f = Some z) es k) /\
  (exists k, zone_cross_borders_count a (Z.of_nat i) = Ok k /\
     counts (fun y => y <> z /\ exists e, In e es /\ joins h z y e) zs k) /\
  (exists m, max_cross_border_len a = Ok m /\
     (forall x y k, In x zs -> In y zs -> x <> y -> counts (joins h x y) es k -> k <= m) /\
     (m = 0 \/ exists x y, In x zs /\ In y zs /\ x <> y /\ counts (joins h x y) es m)).
Proof. exact @queries_main. Qed.
Print Assumptions C21_queries.

(** C21.  The longest border of one zone. *)
Theorem C21_zone_longest_border : forall {F : FloatOps} h es zs a i z,
  NoDup zs -> edges_in_zones h es zs -> zam_build h es zs = Ok a -> nth_error zs i = Some z ->
  exists m, zone_max_cross_border_len a (Z.of_nat i) = Ok m /\
    (forall y k, In y zs -> y <> z -> counts (joins h z y) es k -> k <= m) /\
    (m = 0 \/ exists y, In y zs /\ y <> z /\ counts (joins h z y) es m).
Proof. exact @zone_max_main. Qed.
Print Assumptions C21_zone_longest_border.

Example C21_example : grid_ok strip6 /\
  match zam_build strip6 (g_edges strip6) (g_zones strip6) with
  | Ok a => zone_cross_edges_count a 1 = Ok 2 /\ zone_cross_borders_count a 1 = Ok 2 /\
            zone_cross_borders_count a 0 = Ok 1 /\ max_cross_border_len a = Ok 1
  | _ => False
  end.
Proof. split; [exact strip6_ok|]. vm_compute. auto. Qed.
