(** Properties of the quality factors printed by Grid.print_info: C130.

    Model: DoubleQuality.v, Info.v, Double.v.  Specification vocabulary: DoubleQualitySpec.v, DoubleSpec.v, InfoSpec.v, ZamSpec.v. *)

From Coq Require Import ZArith Reals Ascii String Bool List.
From Verif Require Import Py Heap GridModel GridSpec GridIO FileSpec Samples SamplesAtomic Zam ZamSpec Info InfoSpec InfoCases ContentsSpec Double DoubleSpec
  DoubleQuality DoubleQualitySpec DoubleQualityProofs DoubleQualityCases.
Import ListNotations.
Open Scope list_scope.
Open Scope nat_scope.

(* ================================================================== *)
(** C130.  The line about a zone with at least one outer edge shows the numbers of its faces and outer edges and a factor with three places, as near as possible to the
    exact square root of the first divided by the second.  (Up to 2^28 faces in the zone.) *)
Theorem C130_zone : forall {F : FloatOps} h z, grid_ok h -> zone_lists_ok h -> In z (g_zones h) -> z_faces h z <> [] -> (Z.of_nat (length (z_faces h z)) <= 2 ^ 28)%Z ->
  (exists e, In e (z_edges h z) /\ ~ inside_zone h z e) -> exists m t, shown_factor h z m t.
Proof. exact @zone_shown. Qed.
Print Assumptions C130_zone.

(** C130.  A closed zone has the factor inf, a zone without faces nan; the division by zero raises nothing. *)
Theorem C130_closed : forall {F : FloatOps} h z, grid_ok h -> zone_lists_ok h -> In z (g_zones h) -> (Z.of_nat (length (z_faces h z)) < 2 ^ 53)%Z ->
  (forall e, In e (z_edges h z) -> inside_zone h z e) ->
  quality_line h z = Ok (factor_line (z_name h z) (length (z_faces h z)) 0 (match z_faces h z with [] => lit "nan" | _ => lit "inf" end)).
Proof. exact @zone_closed. Qed.
Print Assumptions C130_closed.

(** C130.  The line after the zones repeats the factor of one zone and that of another one, and no line of a zone shows a smaller factor than the first or a greater one
    than the second. *)
Theorem C130_bounds : forall {F : FloatOps} h, grid_ok h -> zone_lists_ok h -> g_zones h <> [] ->
  (forall z, In z (g_zones h) -> z_faces h z <> [] /\ (Z.of_nat (length (z_faces h z)) <= 2 ^ 28)%Z /\ exists e, In e (z_edges h z) /\ ~ inside_zone h z e) ->
  exists lo hi ml mh tl th, In lo (g_zones h) /\ In hi (g_zones h) /\ shown_factor h lo ml tl /\ shown_factor h hi mh th /\ quality_bounds h = Ok (bounds_line tl th) /\
    forall z, In z (g_zones h) -> exists m t, shown_factor h z m t /\ (ml <= m <= mh)%Z.
Proof. exact @bounds_shown. Qed.
Print Assumptions C130_bounds.

(** C130 is false of grids that have a zone without faces: whether it hides the factors of the others depends on the order of the zones in the file. *)
Theorem C130_order_refuted : exists t1 t2 p q hd h1 h2, t1 = List.concat (flat_map lines_of_piece (hd ++ [p; q])) /\ t2 = List.concat (flat_map lines_of_piece (hd ++ [q; p])) /\
  @load ZOps true t1 empty_heap = (Ok tt, h1) /\ @load ZOps true t2 empty_heap = (Ok tt, h2) /\
  @quality_bounds ZOps h1 = Ok (bounds_line (lit "nan") (lit "nan")) /\ @quality_bounds ZOps h2 = Ok (bounds_line (lit "0.354") (lit "0.354")).
Proof. exact hidden. Qed.
Print Assumptions C130_order_refuted.

(** The strip of six faces in three zones. *)
Example C130_example : grid_ok strip6 /\ zone_lists_ok strip6 /\ g_zones strip6 <> [] /\
  (forall z, In z (g_zones strip6) -> z_faces strip6 z <> [] /\ (Z.of_nat (length (z_faces strip6 z)) <= 2 ^ 28)%Z /\ exists e, In e (z_edges strip6 z) /\ ~ @inside_zone ZOps strip6 z e) /\
  map (@quality_line ZOps strip6) (g_zones strip6) = map (fun s => Ok (lit s)) ["    a : 2 faces, 4 outer edges, QF = 0.354"; "    b : 3 faces, 5 outer edges, QF = 0.346"; "    c : 1 faces, 3 outer edges, QF = 0.333"]%string /\
  @quality_bounds ZOps strip6 = Ok (lit "  ~ min/max quality factor : 0.333, 0.354").
Proof.
  split; [exact strip6_ok|]. split; [exact strip6_lists|]. split; [vm_compute; discriminate|]. split; [exact strip6_outer|]. split; vm_compute; reflexivity.
Qed.
