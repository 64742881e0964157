(** Model of the counters and of print_info: gsu/grid.py (55-117, 132-184), gsu/zone.py (37-88,
    185-251), gsu/edge.py (135-148). *)

From Coq Require Import ZArith NArith QArith Ascii String Bool List.
From Verif Require Import Py Heap GridModel Zam Exchange.
Import ListNotations.
Open Scope list_scope.
Open Scope nat_scope.

Section Info.
  Context {F : FloatOps}.

  (** Edge.is_adjacent_with, edge.py:135-148. *)
  Definition is_adjacent_with (h : heap) (self e : nat) : res bool :=
    do a0 <- py_get (e_nodes h self) 0;
    do a1 <- py_get (e_nodes h self) 1;
    do b0 <- py_get (e_nodes h e) 0;
    do b1 <- py_get (e_nodes h e) 1;
    Ok ((a0 =? b0) || (a0 =? b1) || (a1 =? b0) || (a1 =? b1)).

  (** Zone.nodes_count, zone.py:37-44. *)
  Definition zone_nodes_count (h : heap) (z : nat) : nat := length (z_nodes h z).
  (** Zone.edges_count, zone.py:48-55. *)
  Definition zone_edges_count (h : heap) (z : nat) : nat := length (z_edges h z).
  (** Zone.outer_edges_count, zone.py:59-66. *)
  Definition outer_edges_count (h : heap) (z : nat) : res nat :=
    do bs <- rmap (is_outer h) (z_edges h z);
    Ok (length (filter (fun b : bool => b) bs)).
  (** Zone.faces_count, zone.py:70-77. *)
  Definition zone_faces_count (h : heap) (z : nat) : nat := length (z_faces h z).

  (** Grid.zones_count, grid.py:55-62. *)
  Definition zones_count (h : heap) : nat := length (g_zones h).
  (** Grid.nodes_count, grid.py:66-73. *)
  Definition nodes_count (h : heap) : nat := length (g_nodes h).
  (** Grid.edges_count, grid.py:77-84. *)
  Definition edges_count (h : heap) : nat := length (g_edges h).
  (** Grid.faces_count, grid.py:88-95. *)
  Definition faces_count (h : heap) : nat := length (g_faces h).
  (** Grid.faces_count_in_zones, grid.py:99-106. *)
  Definition faces_count_in_zones (h : heap) : nat := list_sum (map (zone_faces_count h) (g_zones h)).

  (** A line about a zone, grid.py:160-164: name, faces, outer edges.  Zone.zone_quality_factor
      (zone.py:81-88) is np.sqrt of the second divided by the third; a division of a numpy number
      by zero gives inf or nan and raises nothing, so the printed factor is left out here (it is in
      DoubleQuality.v). *)
  Definition zone_line (h : heap) (z : nat) : res (str * nat * nat) :=
    do oc <- outer_edges_count h z;
    Ok (z_name h z, zone_faces_count h z, oc).

  (** The numbers printed about the distribution of faces, grid.py:158-177: the lines of the zones,
      the largest number of faces and the deviation in percents, an exact fraction here.  The
      smallest and the largest quality factor (175-177) are in DoubleQuality.v. *)
  Definition distribution (h : heap) : res (list (str * nat * nat) * nat * Q) :=
    do lines <- rmap (zone_line h) (g_zones h);
    if (zones_count h =? 0) then Raise EZeroDivisionError
    else
      let ideal_mean := Qmake (Z.of_nat (faces_count h)) (Pos.of_nat (zones_count h)) in
      do max_zone_faces_count <- py_max (map (fun z => length (z_faces h z)) (g_zones h));
      if Qeq_bool ideal_mean 0 then Raise EZeroDivisionError
      else Ok (lines, max_zone_faces_count, (100 * (inject_Z (Z.of_nat max_zone_faces_count) - ideal_mean) / ideal_mean)%Q).

  (** What print_info prints; the formats of the numbers are not modelled. *)
  Record shown := mkShown {
    sh_counts : nat * nat * nat * nat;
    sh_edges : option ((nat * nat * nat * nat) * (Q * Q * Q));
    sh_faces : option (list (str * nat * nat) * nat * Q);
    sh_matrix : option (list (list nat) * nat)
  }.

  (** Grid.print_info, grid.py:132-184. *)
  Definition print_info (edges_stat faces_distr matrix : bool) (h : heap) : res shown :=
    do zam <- zam_build h (g_edges h) (g_zones h);
    do es <- (if edges_stat then do s <- edges_statistics zam; Ok (Some s) else Ok None);
    do fs <- (if faces_distr then do d <- distribution h; Ok (Some d) else Ok None);
    do ms <- (if matrix then do m <- max_cross_border_len zam; Ok (Some (zm zam, m)) else Ok None);
    Ok (mkShown (nodes_count h, edges_count h, faces_count h, zones_count h) es fs ms).

  (** Zone.coords_np_array, zone.py:185-197: the rows. *)
  Definition coords_array (h : heap) (z : nat) : list pt := map (n_p h) (z_nodes h z).

  (** A row of Zone.connectivity_list_faces_nodes, zone.py:233-236. *)
  Definition connectivity_row (h : heap) (f : nat) : res (list Z) :=
    do a <- py_get (f_nodes h f) 0;
    do b <- py_get (f_nodes h f) 1;
    do c <- py_get (f_nodes h f) 2;
    let n1 := n_glo h a in let n2 := n_glo h b in let n3 := n_glo h c in
    if negb ((n1 =? n2) && (n2 =? n3))%Z then Ok [n1; n2; n3] else Raise EAssertionError.

  (** Zone.connectivity_list_faces_nodes, zone.py:225-237.  Simplification: the numbers stay whole;
      np.float, which newer numpy has no more, is taken as float. *)
  Definition connectivity_list (h : heap) (z : nat) : res (list (list Z)) := rmap (connectivity_row h) (z_faces h z).

  (** Zone.get_variable, zone.py:239-251. *)
  Definition get_variable (h : heap) (z : nat) (name : str) : list val := map (fun f => data_get (f_data h) f name) (z_faces h z).

  (** Zone.variables_np_array, zone.py:199-223: the rows, the identifier and the eleven columns
      after it (np.float as above). *)
  Definition variables_array (h : heap) (z : nat) : list (Z * list val) :=
    map (fun f => let get := data_get (f_data h) f in
      (f_glo h f, [get (lit "T"); get (lit "Hw"); get (lit "Hi"); get (lit "HTC"); get (lit "Beta"); val0; val0;
                   get (lit "TauX"); get (lit "TauY"); get (lit "TauZ"); val0])) (z_faces h z).
End Info.
