{
 "claims": [
  {
   "property": "C01",
   "status": "proved",
   "theorems": [
    "C01_store_load_round_trip"
   ],
   "note": "Proved for every consistent grid with merged nodes; hypotheses: reading a formatted number gives it back (faithful_numbers), names and variables free of the special characters, at least one face."
  },
  {
   "property": "C02",
   "status": "proved",
   "theorems": [
    "C02_loaded_incidence",
    "C02_loaded_contents"
   ],
   "note": "Proved for every accepted file without degenerate faces (with merging; without merging when the nodes inside each zone differ after rounding), plus the contents of the loaded grid."
  },
  {
   "property": "C03",
   "status": "proved",
   "theorems": [
    "C03_nonmanifold_rejected",
    "C03_at_most_two_faces",
    "C03_manifold_accepted"
   ],
   "note": "Rejection, at most two faces per edge, and the converse (every other well-formed non-degenerate file is accepted)."
  },
  {
   "property": "C04",
   "status": "proved",
   "theorems": [
    "C04_node_merging",
    "C04_representative"
   ],
   "note": "Exact list of nodes with and without merging, representative of every point, identifiers."
  },
  {
   "property": "C05",
   "status": "partial",
   "theorems": [
    "C05_accepts_only_well_formed",
    "C05_terminates",
    "C05_entry_range_refuted"
   ],
   "note": "Accepted files are well-formed and load terminates; the claim that connectivity entries must be between 1 and NODES is refuted (0 and negative entries are accepted)."
  },
  {
   "property": "C06",
   "status": "partial",
   "theorems": [
    "C06_load_replaces_contents",
    "C06_title_replaced",
    "C06_load_replaces_refuted"
   ],
   "note": "Same outcome and same state as loading into a new object, but for the name and the number of border nodes; refuted in general (both survive)."
  },
  {
   "property": "C07",
   "status": "proved",
   "theorems": [
    "C07_stored_connectivity",
    "C07_no_faces"
   ],
   "note": "The exact lines of the written file; same hypotheses as C01 without merging."
  },
  {
   "property": "C08",
   "status": "proved",
   "theorems": [
    "C08_decompositions_list_zone_contents",
    "C08_linking_lists_zone_contents",
    "C08_zone_lists_after_load"
   ],
   "note": "Proved for load, for every decomposition and for linking of any face assignment."
  },
  {
   "property": "C09",
   "status": "proved",
   "theorems": [
    "C09_decompositions_partition",
    "C09_random_returns"
   ],
   "note": ""
  },
  {
   "property": "C10",
   "status": "proved",
   "theorems": [
    "C10_mono"
   ],
   "note": ""
  },
  {
   "property": "C11",
   "status": "proved",
   "theorems": [
    "C11_linear"
   ],
   "note": ""
  },
  {
   "property": "C12",
   "status": "proved",
   "theorems": [
    "C12_farhat"
   ],
   "note": ""
  },
  {
   "property": "C13",
   "status": "proved",
   "theorems": [
    "C13_bfs_path"
   ],
   "note": ""
  },
  {
   "property": "C14",
   "status": "proved",
   "theorems": [
    "C14_bfs_component"
   ],
   "note": ""
  },
  {
   "property": "C15",
   "status": "proved",
   "theorems": [
    "C15_farhat_connected"
   ],
   "note": ""
  },
  {
   "property": "C16",
   "status": "partial",
   "theorems": [
    "C16_hierarchical_keeps_fixed",
    "C16_default_signs",
    "C16_hierarchical_returns_partial",
    "C16_hierarchical_count_partial",
    "C16_hierarchical_refuted",
    "C16_split_returns_iff"
   ],
   "note": "Fixed zones, names and the upper bound proved whenever it returns; returning proved when the last sign function separates the faces; the unconditional claim is refuted on a plane grid; exact condition for one split proved (iff)."
  },
  {
   "property": "C17",
   "status": "partial",
   "theorems": [
    "C17_metric_partial",
    "C17_metric_degenerate",
    "C17_metric_refuted"
   ],
   "note": "Proved when the split is not degenerate; the degenerate case leaves the faces in the right child (proved and refutes the full claim)."
  },
  {
   "property": "C18",
   "status": "proved",
   "theorems": [
    "C18_split",
    "C18_halves"
   ],
   "note": ""
  },
  {
   "property": "C19",
   "status": "proved",
   "theorems": [
    "C19_matrix_counts_edges",
    "C19_bad_edge_raises",
    "C19_grids_qualify"
   ],
   "note": ""
  },
  {
   "property": "C20",
   "status": "proved",
   "theorems": [
    "C20_edge_statistics"
   ],
   "note": ""
  },
  {
   "property": "C21",
   "status": "proved",
   "theorems": [
    "C21_queries",
    "C21_zone_longest_border"
   ],
   "note": ""
  },
  {
   "property": "C22",
   "status": "proved",
   "theorems": [
    "C22_border_lists_match",
    "C22_borders_exact"
   ],
   "note": ""
  },
  {
   "property": "C23",
   "status": "proved",
   "theorems": [
    "C23_files_describe_zones",
    "C23_local_numbers_in_range"
   ],
   "note": ""
  },
  {
   "property": "C24",
   "status": "partial",
   "theorems": [
    "C24_mpi_name_parts",
    "C24_mpi_name_recognised_iff",
    "C24_recognised_exactly",
    "C24_separators_refuted",
    "C24_mpi_name_recognised_refuted",
    "C24_superscript_raises_refuted"
   ],
   "note": "Recovered exactly for zone numbers below 100000 (iff theorem); larger numbers and superscript digits refuted."
  },
  {
   "property": "C25",
   "status": "partial",
   "theorems": [
    "C25_timestamp_inverse",
    "C25_timestamp_default",
    "C25_timestamp_digits_partial",
    "C25_timestamp_digits_refuted"
   ],
   "note": "Proved for names not ending in a line feed; the digits claim is refuted for names that do."
  },
  {
   "property": "C26",
   "status": "proved",
   "theorems": [
    "C26_group"
   ],
   "note": ""
  },
  {
   "property": "C27",
   "status": "proved",
   "theorems": [
    "C27_flatten"
   ],
   "note": ""
  },
  {
   "property": "C28",
   "status": "proved",
   "theorems": [
    "C28_merge_timestamp",
    "C28_order_irrelevant",
    "C28_merge",
    "C28_mixed_headers_lose_data"
   ],
   "note": "Whole merge tool: names and contents of all output files, for txt files with a common header covering every face number once; order of files irrelevant; a witness shows why the common header is needed."
  },
  {
   "property": "C29",
   "status": "partial",
   "theorems": [
    "C29_only_listed_faces",
    "C29_accepts_only",
    "C29_negative_number_refuted"
   ],
   "note": "Proved for numbers in range; numbers counted from the end are accepted and change an unlisted face (refuted)."
  },
  {
   "property": "C30",
   "status": "partial",
   "theorems": [
    "C30_exact",
    "C30_exact_count",
    "C30_exact_count_refuted",
    "C30_hierarchical",
    "C30_raises",
    "C30_accepts_only",
    "C30_written"
   ],
   "note": "n<k>: kept zones, number of added zones, exactly k zones for different names (refuted for a name given twice); h<n>: whenever it returns; exceptions; contents of the written file."
  },
  {
   "property": "C31",
   "status": "proved",
   "theorems": [
    "C31_recovery_factor"
   ],
   "note": "For every run of split that returns; the written file contains the variable."
  },
  {
   "property": "C32",
   "status": "proved",
   "theorems": [
    "C32_exchange_delivers"
   ],
   "note": "One exchange, all interleavings: no exception, no deadlock, termination, owner's values delivered, nothing else changed. Ranks are modelled by a transition system; MPI point-to-point order is assumed."
  },
  {
   "property": "C33",
   "status": "partial",
   "theorems": [
    "C33_gather_actual_partial",
    "C33_gather_returns_partial",
    "C33_gather_refuted"
   ],
   "note": "Exact behaviour proved; right when the zones before zone i have i times its size (e.g. equal sizes); false in general (refuted)."
  },
  {
   "property": "C34",
   "status": "proved",
   "theorems": [
    "C34_divide_face"
   ],
   "note": "Proved in full: new node, edges, faces with ends, corners, data, zone; counts; everything else unchanged; consistency (incidence, zones, lists of zones, numbering, merged nodes)."
  },
  {
   "property": "C35",
   "status": "proved",
   "theorems": [
    "C35_cut_single_edge",
    "C35_other_edges"
   ],
   "note": "Proved in full; other edges: False and the same state."
  },
  {
   "property": "C36",
   "status": "partial",
   "theorems": [
    "C36_any_zones_partial",
    "C36_cut_edge_partial",
    "C36_other_edges",
    "C36_two_zones_refuted",
    "C36_double_face_refuted"
   ],
   "note": "Exact description for every inner edge of grids without two faces on the same corners: for an edge within one zone the grid stays consistent; for an edge between two zones all new objects go to the zone of the first face, only the lists of zone members may become wrong (refuted: they do); refuted for double faces (two edges join the same nodes)."
  },
  {
   "property": "C37",
   "status": "partial",
   "theorems": [
    "C37_any_zones_partial",
    "C37_collapse_face_partial",
    "C37_diagonal_refuted"
   ],
   "note": "The chosen edge is a longest one; flip proved for a free diagonal, within one zone and across zones (new faces in the zone of the given face); a border longest edge changes nothing; refuted when the diagonal exists already."
  },
  {
   "property": "C38",
   "status": "partial",
   "theorems": [
    "C38_other_edges",
    "C38_numbers_refuted",
    "C38_exception_refuted",
    "C38_collapse_partial",
    "C38_numbers_partial"
   ],
   "note": "Other edges: nothing changes. Inner edges whose ends can be made one node (link condition, one zone, a third face at the second end): exact description of the result, incidence, zones and lists consistent, and the numbers are 0..n-1 exactly if the last remaining members have the greatest numbers. Refuted without the conditions: a face keeps a number >= the number of faces, and an IndexError on a consistent grid."
  },
  {
   "property": "C39",
   "status": "partial",
   "theorems": [
    "C39_any_zones_partial",
    "C39_border",
    "C39_inner_partial",
    "C39_two_zones_refuted"
   ],
   "note": "Border edges proved in full; inner edges of grids without double faces described exactly, consistent within one zone; refuted for edges between two zones."
  },
  {
   "property": "C40",
   "status": "partial",
   "theorems": [
    "C40_mark",
    "C40_again",
    "C40_number_partial",
    "C40_number_refuted"
   ],
   "note": "Exact marks and growth of the counter for every grid, idempotence; the counter equals the number of marked nodes for a new grid, refuted for a grid object loaded twice."
  },
  {
   "property": "C41",
   "status": "proved",
   "theorems": [
    "C41_cloud",
    "C41_caller_list",
    "C41_caller_order",
    "C41_depth",
    "C41_empty"
   ],
   "note": "Every non-empty list: termination, leaves of one triangle, permutation, boxes; the empty list raises. The list of the caller is left in the order of the longest side, and the depth is logarithmic."
  },
  {
   "property": "C42",
   "status": "partial",
   "theorems": [
    "C42_search_partial",
    "C42_pruning",
    "C42_touching_refuted",
    "C42_ahead_refuted"
   ],
   "note": "Proved when no triangle is almost parallel to the segment, and pruning loses nothing the triangle test finds; refuted for coplanar segments (touching corner lost; triangle just ahead of the end reported)."
  },
  {
   "property": "C43",
   "status": "partial",
   "theorems": [
    "C43_general_partial",
    "C43_small_refuted"
   ],
   "note": "Proved for determinant >= 1e-10 in absolute value; refuted for smaller non-zero determinants."
  },
  {
   "property": "C44",
   "status": "proved",
   "theorems": [
    "C44_box_of_points",
    "C44_point_inside",
    "C44_boxes",
    "C44_symmetric",
    "C44_segment"
   ],
   "note": "Box of points is least; point, box and segment tests."
  },
  {
   "property": "C45",
   "status": "partial",
   "theorems": [
    "C45_irreflexive",
    "C45_eq_reflexive",
    "C45_eq_symmetric",
    "C45_order_partial",
    "C45_lexicographic",
    "C45_equality_partial",
    "C45_asymmetric_refuted",
    "C45_transitive_refuted",
    "C45_eq_transitive_refuted"
   ],
   "note": "Irreflexivity, reflexivity and symmetry of equality; asymmetry, transitivity refuted; lexicographic order for coordinates equal or 1e-10 apart."
  },
  {
   "property": "C46",
   "status": "proved",
   "theorems": [
    "C46_prism",
    "C46_area_height",
    "C46_zero",
    "C46_nonnegative",
    "C46_translation",
    "C46_tetrahedron"
   ],
   "note": "Exact real arithmetic."
  },
  {
   "property": "C47",
   "status": "proved",
   "theorems": [
    "C47_total",
    "C47_downhill",
    "C47_equal",
    "C47_sign"
   ],
   "note": "All iterations: total of chunks kept, nothing else touched; one iteration is a flow downhill over inner edges; equal heights: nothing changes; no negative ice for beta <= 1/3."
  },
  {
   "property": "C48",
   "status": "proved",
   "theorems": [
    "C48_bounds",
    "C48_refused",
    "C48_enough",
    "C48_found"
   ],
   "note": "Bounds, refusal, the height/side condition for all but the allowed part, and existence of the result."
  },
  {
   "property": "C49",
   "status": "partial",
   "theorems": [
    "C49_history",
    "C49_rest",
    "C49_shares_partial",
    "C49_shares_refuted"
   ],
   "note": "rest_ice >= 0 at every step and at the end with redistribution; without redistribution the chunk is target/(steps to go), so equal shares are refuted (one and a half of the target grows in two steps)."
  },
  {
   "property": "C50",
   "status": "proved",
   "theorems": [
    "C50_root",
    "C50_used",
    "C50_face",
    "C50_coefficients",
    "C50_nodes"
   ],
   "note": "Root, sign, use of the formula, meaning of the coefficients, means at nodes."
  },
  {
   "property": "C51",
   "status": "partial",
   "theorems": [
    "C51_fly_partial",
    "C51_points_refuted"
   ],
   "note": "All claims proved with at most max_steps steps; \"at most max_steps points\" is false. Legs along the plane of a triangle are excepted (C42)."
  },
  {
   "property": "C52",
   "status": "partial",
   "theorems": [
    "C52_mass_partial",
    "C52_mass_lost",
    "C52_mass_refuted"
   ],
   "note": "True if at most one droplet lands on the face; false otherwise: only the last one is counted."
  },
  {
   "property": "C53",
   "status": "proved",
   "theorems": [
    "C53_find_nearest",
    "C53_interpolation",
    "C53_add_beta"
   ],
   "note": "scipy's KDTree query is an oracle assumed to return a nearest point."
  },
  {
   "property": "C54",
   "status": "partial",
   "theorems": [
    "C54_triangles",
    "C54_data_partial",
    "C54_data_refuted",
    "C54_data_order"
   ],
   "note": "Mesh part proved for all blocks; data part proved for blocks with one row or column of cells and refuted for 3x3 nodes (links go row-first, data column-first); the order really written is proved for all blocks."
  },
  {
   "property": "C55",
   "status": "proved",
   "theorems": [
    "C55_file",
    "C55_four_corners",
    "C55_three_corners",
    "C55_means"
   ],
   "note": "Quads by all coincidence patterns; C55_file is the whole LoadNodesData on the text of a file."
  },
  {
   "property": "C56",
   "status": "proved",
   "theorems": [
    "C56_mask",
    "C56_zones",
    "C56_variables"
   ],
   "note": "Whole files as lists of lines; zone headers of the form T=\"name\" ... N=n ... E=e; a file with one line of variables for filter_variables."
  },
  {
   "property": "C57",
   "status": "proved",
   "theorems": [
    "C57_shifts",
    "C57_refused"
   ],
   "note": "Exact positions of all nodes and the refusal."
  },
  {
   "property": "C58",
   "status": "proved",
   "theorems": [
    "C58_convert",
    "C58_missing",
    "C58_clean"
   ],
   "note": "Also: KeyError if some face lacks one of the five fields."
  },
  {
   "property": "C59",
   "status": "partial",
   "theorems": [
    "C59_total_csv",
    "C59_heights",
    "C59_first_row",
    "C59_one_row_refuted"
   ],
   "note": "Tables of one shape; numpy addition modelled with broadcasting; parsing and printing of csv not modelled. Tables of different heights are refused (C59_heights) unless the shorter one has one row (C59_one_row_refuted)."
  },
  {
   "property": "C60",
   "status": "proved",
   "theorems": [
    "C60_any_zones",
    "C60_repair",
    "C60_sequences",
    "C60_sequences_any",
    "C60_with_collapse"
   ],
   "note": "All sequences of five decompositions, divide_face, cut_single_edge, cut_edge, cut_edge_with_two_nodes, collapse_face, collapse_edge (under the conditions of C38), mark_all_fixed_nodes that are allowed step by step (AtomicActs.v); the same for edges between zones with everything but lists of zone members, which any decomposition repairs."
  },
  {
   "property": "C61",
   "status": "proved",
   "theorems": [
    "C61_convex",
    "C61_box",
    "C61_equal"
   ],
   "note": "In every half-space (so in every box) that contains the vectors; equal vectors."
  },
  {
   "property": "C62",
   "status": "proved",
   "theorems": [
    "C62_explosion",
    "C62_shape",
    "C62_empty"
   ],
   "note": ""
  },
  {
   "property": "C63",
   "status": "partial",
   "theorems": [
    "C63_consecutive_exchanges_refuted",
    "C63_consecutive_exchanges_partial"
   ],
   "note": "Refuted: the send buffer is filled again while the previous Isend may still read it; proved for all runs where it is not."
  },
  {
   "property": "C64",
   "status": "partial",
   "theorems": [
    "C64_least_refuted",
    "C64_small_partial"
   ],
   "note": "False: on a square without ice ten steps are made though one is enough; proved that grids in which no face may be ignored always take nsteps_max."
  },
  {
   "property": "C65",
   "status": "proved",
   "theorems": [
    "C65_flat"
   ],
   "note": "Whole remesh on every flat surface: exact positions, volumes and cleared heights, with and without redistribution."
  },
  {
   "property": "C66",
   "status": "proved",
   "theorems": [
    "C66_moves",
    "C66_others"
   ],
   "note": "Directions not longer than one, node moves by direction times height."
  },
  {
   "property": "C67",
   "status": "partial",
   "theorems": [
    "C67_null_space_never",
    "C67_pseudo_2d_never",
    "C67_options_refuted"
   ],
   "note": "False: every run with nss_steps > 0 or pseudo_2d_oz raises."
  },
  {
   "property": "C68",
   "status": "proved",
   "theorems": [
    "C68_balance"
   ],
   "note": "Invariant over all steps of a run."
  },
  {
   "property": "C69",
   "status": "partial",
   "theorems": [
    "C69_drag_law",
    "C69_speed_partial",
    "C69_speed_refuted"
   ],
   "note": "Relative speed does not grow while rate * dt <= 2; false for small droplets at the default time step."
  },
  {
   "property": "C70",
   "status": "partial",
   "theorems": [
    "C70_step_partial",
    "C70_calm_refuted"
   ],
   "note": "False: ZeroDivisionError for a droplet that moves with the air; otherwise no exception for a positive diameter."
  },
  {
   "property": "C71",
   "status": "proved",
   "theorems": [
    "C71_drops",
    "C71_flight"
   ],
   "note": "Invariant of the loop over faces. Every flight starts above its face and ends on the face its trajectory crosses."
  },
  {
   "property": "C72",
   "status": "proved",
   "theorems": [
    "C72_file",
    "C72_htc",
    "C72_htc_raises"
   ],
   "note": "Exact arithmetic; C72_file is the whole function on the text of a file, reading and writing of numbers are parameters."
  },
  {
   "property": "C73",
   "status": "proved",
   "theorems": [
    "C73_export_after_clean",
    "C73_replace_node"
   ],
   "note": ""
  },
  {
   "property": "C74",
   "status": "proved",
   "theorems": [
    "C74_pairs",
    "C74_only_pairs"
   ],
   "note": ""
  },
  {
   "property": "C75",
   "status": "partial",
   "theorems": [
    "C75_requested_kept_partial",
    "C75_requested_kept_refuted",
    "C75_only_requested_refuted"
   ],
   "note": "Proved for names that follow the comma at once; refuted for blanks after commas (the form filter_variables itself writes) and for longer names that contain a requested one."
  },
  {
   "property": "C76",
   "status": "partial",
   "theorems": [
    "C76_merge_partial",
    "C76_other_order_refuted",
    "C76_column_order_refuted"
   ],
   "note": "Proved for rows with the same number in files of the same shape; refuted for another order of nodes and for another order of variables."
  },
  {
   "property": "C77",
   "status": "proved",
   "theorems": [
    "C77_nodes_to_faces",
    "C77_grid"
   ],
   "note": "Reading (float) and writing (%f) of numbers are parameters; titles without = are assumed."
  },
  {
   "property": "C78",
   "status": "partial",
   "theorems": [
    "C78_short_zone_partial",
    "C78_short_zone_refuted"
   ],
   "note": "Proved for zones followed by another header; refuted for the last zone of a file."
  },
  {
   "property": "C79",
   "status": "partial",
   "theorems": [
    "C79_air_field_partial",
    "C79_no_samples",
    "C79_short_rows",
    "C79_short_links",
    "C79_missing_links_refuted"
   ],
   "note": "All samples of complete files are read, short rows are reported; refuted: links missing before another zone make the samples of that zone disappear silently."
  },
  {
   "property": "C80",
   "status": "partial",
   "theorems": [
    "C80_file_partial",
    "C80_not_loadable",
    "C80_load_refuted",
    "C80_degenerate_first_face"
   ],
   "note": "The file written has the form of a grid file with the zones described; refuted: Grid.load rejects every such file that has a leg (degenerate faces)."
  },
  {
   "property": "C81",
   "status": "proved",
   "theorems": [
    "C81_same_zones",
    "C81_stored_again"
   ],
   "note": "All accepted files with faces and without degenerate faces."
  },
  {
   "property": "C82",
   "status": "partial",
   "theorems": [
    "C82_remeshed_file_partial",
    "C82_flat_file",
    "C82_lone_point",
    "C82_always_refuted"
   ],
   "note": "All files for which the remesher ends and the new positions differ after rounding; unconditional for flat surfaces with even ice; refuted: a point on no face makes the program fail."
  },
  {
   "property": "C83",
   "status": "partial",
   "theorems": [
    "C83_drops_files_partial",
    "C83_impinged_refuted"
   ],
   "note": "All runs in which the flights end (C51, C71); refuted: MImp2 is lost when no droplet landed on the first face."
  },
  {
   "property": "C84",
   "status": "partial",
   "theorems": [
    "C84_name_partial",
    "C84_same_name",
    "C84_name_refuted",
    "C84_distinct_refuted"
   ],
   "note": "Names without '_r_' of their own; refuted for names with it, and two inputs of one directory may get the same name."
  },
  {
   "property": "C85",
   "status": "partial",
   "theorems": [
    "C85_meet_partial",
    "C85_points_partial",
    "C85_symmetric",
    "C85_small",
    "C85_small_refuted",
    "C85_apart_refuted"
   ],
   "note": "Proved for triangles without sides almost parallel to the plane of the other one (determinant of at least 1e-10); order independence without conditions. Refuted for small triangles (common points are lost) and for triangles of one plane (reported without common points)."
  },
  {
   "property": "C86",
   "status": "proved",
   "theorems": [
    "C86_clouds"
   ],
   "note": "All non-empty lists; what is reported for a pair is what C85 describes."
  },
  {
   "property": "C87",
   "status": "partial",
   "theorems": [
    "C87_inside_partial",
    "C87_outside_partial",
    "C87_small_refuted",
    "C87_over_refuted"
   ],
   "note": "Proved for points of the plane and triangles of area at least 0.15; refuted for a triangle of half a square millimetre and for a point above the plane."
  },
  {
   "property": "C88",
   "status": "partial",
   "theorems": [
    "C88_equal_partial",
    "C88_reflexive",
    "C88_symmetric_refuted"
   ],
   "note": "Proved for different corners with coordinates that are equal or differ by 3e-10; symmetry refuted for a triangle with two equal corners."
  },
  {
   "property": "C89",
   "status": "partial",
   "theorems": [
    "C89_stored_partial",
    "C89_ends",
    "C89_more_refuted",
    "C89_name_refuted",
    "C89_words",
    "C89_export_rejected"
   ],
   "note": "Proved for grids with the eight variables Import expects and names of zones without words of headers. Refuted for one more variable, for a name that contains a word of headers (the zone is lost) and for files of Export of the same class, which are always rejected if there is a face."
  },
  {
   "property": "C90",
   "status": "proved",
   "theorems": [
    "C90_calc_round_trip",
    "C90_others_lost"
   ],
   "note": "All grids with distinct faces numbered in order and faithful numbers; random numbers are parameters. Other variables of faces are lost, as proved."
  },
  {
   "property": "C91",
   "status": "partial",
   "theorems": [
    "C91_options",
    "C91_no_json",
    "C91_heated_stay",
    "C91_element_without_zone",
    "C91_elements_no_list",
    "C91_elements_empty",
    "C91_zone_no_name",
    "C91_strategy_no_text",
    "C91_heated_stay_refuted",
    "C91_domains_refuted",
    "C91_help_refuted"
   ],
   "note": "The options are proved for all json values of the expected shape; refuted: an element without zone releases all zones without an error, two elements in one zone give fewer domains than asked, strategy z of the help is refused. json.load is not modelled. A json file whose elements are not a list, or whose zone is not a string, makes the program fail (C91_elements_no_list, C91_zone_no_name)."
  },
  {
   "property": "C92",
   "status": "proved",
   "theorems": [
    "C92_values",
    "C92_verbose",
    "C92_not_object",
    "C92_default",
    "C92_used",
    "C92_printed"
   ],
   "note": "All json objects; a json file that is not an object raises. For the remeshing itself the numbers must be numbers."
  },
  {
   "property": "C93",
   "status": "partial",
   "theorems": [
    "C93_plane_partial",
    "C93_symmetric_partial",
    "C93_degenerate",
    "C93_refuted"
   ],
   "note": "Proved for triangles with corners not on one line; refuted for others (always true, depends on the order). Real numbers."
  },
  {
   "property": "C94",
   "status": "partial",
   "theorems": [
    "C94_angle",
    "C94_angle_raises",
    "C94_corners",
    "C94_raises",
    "C94_sum",
    "C94_sixty",
    "C94_large",
    "C94_acute",
    "C94_quality_refuted"
   ],
   "note": "All vectors and triangles over real numbers (arccos of a rounded cosine above one is not modelled); is_good refuted: it always raises NameError."
  },
  {
   "property": "C95",
   "status": "proved",
   "theorems": [
    "C95_three_files"
   ],
   "note": "All triples of well formed files; text to text over real numbers with rounding functions for str() and '%f'. Faces with two corners at one position (after rounding) are excluded."
  },
  {
   "property": "C96",
   "status": "proved",
   "theorems": [
    "C96_interpolate",
    "C96_add_beta",
    "C96_no_source"
   ],
   "note": "All pairs of files; KDTree.query is a parameter that finds a nearest point; distances over real numbers, the copied values are exact."
  },
  {
   "property": "C97",
   "status": "partial",
   "theorems": [
    "C97_missing_refuted",
    "C97_missing",
    "C97_missing_beta"
   ],
   "note": "False: the values of the target are replaced by zeros without an error; proved for all sources without the variable (C97_missing, C97_missing_beta)."
  },
  {
   "property": "C98",
   "status": "proved",
   "theorems": [
    "C98_blocks",
    "C98_only_complete",
    "C98_one_layer"
   ],
   "note": "All directories with pairs of wall files; str(-float(.)) is a parameter that turns a text of a number into a text of its opposite."
  },
  {
   "property": "C99",
   "status": "partial",
   "theorems": [
    "C99_names_refuted",
    "C99_names_partial",
    "C99_no_name"
   ],
   "note": "False: wing_B-1 and tail_B-1 both become B-1 and files without a letter B all become None; proved instead: equal names mean equal endings from the last B on."
  },
  {
   "property": "C100",
   "status": "partial",
   "theorems": [
    "C100_same_file_refuted",
    "C100_used_nodes_partial",
    "C100_second_file"
   ],
   "note": "False: a node listed in a zone without being a corner there moves; proved for files where every node is a corner, and for every grid from the second stored file on."
  },
  {
   "property": "C101",
   "status": "proved",
   "theorems": [
    "C101_accepted",
    "C101_through",
    "C101_between",
    "C101_before",
    "C101_after",
    "C101_range",
    "C101_monotone",
    "C101_steepness",
    "C101_fitted",
    "C101_polynomial",
    "C101_is_polynomial",
    "C101_constant"
   ],
   "note": "make_interp_spline is modelled by its documentation, curve_fit is a parameter with the hypothesis that it minimises the sum of squares."
  },
  {
   "property": "C102",
   "status": "partial",
   "theorems": [
    "C102_inside_partial",
    "C102_positive_refuted",
    "C102_steady",
    "C102_steady_refuted",
    "C102_units_refuted"
   ],
   "note": "False: viscosity at 200 degrees is below zero, the vaporization table is in other units than the sublimation table; bounds inside of the tables proved. The laws are steady in the temperature except that of air (C102_steady, C102_steady_refuted)."
  },
  {
   "property": "C103",
   "status": "proved",
   "theorems": [
    "C103_added",
    "C103_shorter"
   ],
   "note": "The three arrays are separate pieces of memory; undefined behaviour of C is an exception."
  },
  {
   "property": "C104",
   "status": "partial",
   "theorems": [
    "C104_names_differ",
    "C104_order_partial",
    "C104_order_refuted"
   ],
   "note": "Names differ for all iterations; the order is false (999, 1000) and proved up to 999."
  },
  {
   "property": "C105",
   "status": "proved",
   "theorems": [
    "C105_works",
    "C105_empty",
    "C105_zone",
    "C105_zone_counters",
    "C105_grid",
    "C105_faces",
    "C105_distribution"
   ],
   "note": "Percentages are exact fractions; the formats of printed numbers and the quality factor (a division of numpy numbers, which raises nothing) are left out."
  },
  {
   "property": "C106",
   "status": "proved",
   "theorems": [
    "C106_common_node",
    "C106_face"
   ],
   "note": "All pairs of edges."
  },
  {
   "property": "C107",
   "status": "partial",
   "theorems": [
    "C107_rows",
    "C107_places_partial",
    "C107_places_refuted",
    "C107_variables",
    "C107_variables_refuted",
    "C107_variable"
   ],
   "note": "False for two zones (numbers are global) and for MImp2, Vd2 and the recovery factor, which are always zero; proved: rows and columns for every zone, places for one zone."
  },
  {
   "property": "C108",
   "status": "partial",
   "theorems": [
    "C108_stored_partial",
    "C108_repaired",
    "C108_two_zones_refuted",
    "C108_silent_refuted"
   ],
   "note": "Proved for sequences of calls on edges within one zone, and for all edges if a decomposition is the last call; refuted for edges between two zones: the file cannot be loaded, or it is loaded as another grid without an error."
  },
  {
   "property": "C109",
   "status": "partial",
   "theorems": [
    "C109_one_request",
    "C109_refine_partial",
    "C109_shared_side_refuted",
    "C109_neighbour_refuted",
    "C109_two_sides_refuted"
   ],
   "note": "Exact description of all requests (one point inside, one or two points on a side) that are not made for a face divided before; refuted for a point of a side that is reported for both faces (IndexError), for a point inside a face beside a divided side (ValueError), for points on two sides (they are ignored). The module cannot be imported as it is (gsu.gsu does not exist); modelled with Grid."
  },
  {
   "property": "C110",
   "status": "partial",
   "theorems": [
    "C110_prepare_partial",
    "C110_found_partial",
    "C110_leak_refuted",
    "C110_close_refuted",
    "C110_none_refuted"
   ],
   "note": "Every triangle comes once, with found points only, and no found point is lost up to steps between close points; refuted: points of one triangle get into the list of another one (shared list objects), close points may both stay, IndexError without intersections."
  },
  {
   "property": "C111",
   "status": "partial",
   "theorems": [
    "C111_moved",
    "C111_shape",
    "C111_case",
    "C111_empty_refuted"
   ],
   "note": "File-to-file description for all files whose zones have faces, none degenerate and without coinciding points in a zone; the pipeline of the test case without further conditions on the decomposed file; refuted for a zone without faces (division by zero)."
  },
  {
   "property": "C112",
   "status": "partial",
   "theorems": [
    "C112_cycle",
    "C112_every",
    "C112_decomposed_refuted"
   ],
   "note": "The whole cycle is proved for every strategy and every order of rows, with coverage of all faces; the variant of merging into the decomposed dat file is refuted by a witness."
  },
  {
   "property": "C113",
   "status": "partial",
   "theorems": [
    "C113_faces_partial",
    "C113_rows",
    "C113_variables_refuted"
   ],
   "note": "Proved for all decompositions with respect to the variables of the first zone, and in full for files whose zones have the same variables; the loss of other variables is shown by a witness."
  },
  {
   "property": "C114",
   "status": "proved",
   "theorems": [
    "C114_redrawn"
   ],
   "note": "Proved for every file and every sequence of random numbers."
  },
  {
   "property": "C115",
   "status": "partial",
   "theorems": [
    "C115_divide",
    "C115_flip",
    "C115_cut",
    "C115_single",
    "C115_two",
    "C115_none",
    "C115_collapse_partial",
    "C115_collapse_refuted"
   ],
   "note": "Proved for all cases but the contraction of an edge, where the exact condition is proved and a witness shows the failure."
  },
  {
   "property": "C116",
   "status": "partial",
   "theorems": [
    "C116_run",
    "C116_heights",
    "C116_equal_partial",
    "C116_mixed",
    "C116_heights_refuted",
    "C116_exists",
    "C116_ranks",
    "C116_too_many",
    "C116_missing",
    "C116_flat"
   ],
   "note": "Proved; the heights put together by the root are described exactly (C116_heights) and the claim that they are those of the faces is proved for numbers of faces that are multiples of the number of ranks (or equal heights) and refuted otherwise."
  },
  {
   "property": "C117",
   "status": "proved",
   "theorems": [
    "C117_store",
    "C117_split",
    "C117_divided",
    "C117_cycle"
   ],
   "note": "Proved. The reader is part of the specification (SolverSpec.v); numbers are assumed to be read back as they were written (faithful_numbers), as in C01."
  },
  {
   "property": "C118",
   "status": "partial",
   "theorems": [
    "C118_directories",
    "C118_cry_ignored",
    "C118_other_grids",
    "C118_leftover_refuted"
   ],
   "note": "The main statement is proved (C118_directories) and that files of split are not mistaken for texts of the solver (C118_cry_ignored); C118_leftover_refuted: a text left by an older run with more parts replaces right values."
  },
  {
   "property": "C119",
   "status": "proved",
   "theorems": [
    "C119_load",
    "C119_every",
    "C119_split",
    "C119_split_run",
    "C119_merge",
    "C119_remesh",
    "C119_import",
    "C119_lazurit",
    "C119_ansys"
   ],
   "note": "Proved. The translation of line ends by open(..., 'r') is part of the model (universal_nl in Py.v)."
  },
  {
   "property": "C120",
   "status": "partial",
   "theorems": [
    "C120_contents",
    "C120_rewritten",
    "C120_last_line_end",
    "C120_split",
    "C120_merge",
    "C120_remesh",
    "C120_inside_refuted",
    "C120_blank_refuted",
    "C120_title_refuted"
   ],
   "note": "The main statement is proved for all texts (C120_contents, C120_rewritten, C120_last_line_end and the programs); the three refutations show kinds of rewriting that load does not allow."
  },
  {
   "property": "C121",
   "status": "proved",
   "theorems": [
    "C121_restart",
    "C121_next"
   ],
   "note": "Proved in full of the model, for numbers which are written exactly (faithful_numbers, as in C05)."
  },
  {
   "property": "C122",
   "status": "proved",
   "theorems": [
    "C122_read",
    "C122_written",
    "C122_read_back",
    "C122_store_load",
    "C122_order",
    "C122_no_drift"
   ],
   "note": "Proved in full. Doubles, their rounding and arithmetic are those of the library Flocq (binary_float 53 1024); nan is left out (a nan is not equal to itself)."
  },
  {
   "property": "C123",
   "status": "partial",
   "theorems": [
    "C123_rounding",
    "C123_same",
    "C123_again",
    "C123_merging",
    "C123_near_refuted"
   ],
   "note": "Proved in full; that near points are always merged is refuted by neighbouring doubles on the two sides of 5*10^-11."
  },
  {
   "property": "C124",
   "status": "partial",
   "theorems": [
    "C124_written",
    "C124_small",
    "C124_kept_refuted",
    "C124_file",
    "C124_joined",
    "C124_refused",
    "C124_loadable_refuted"
   ],
   "note": "Proved; that values survive the export is refuted by 4e-7, and C124_small says for which values it fails. That every exported file can be loaded is refuted by a face of four ten-millionths (C124_loadable_refuted); C124_refused says when it fails."
  },
  {
   "property": "C125",
   "status": "partial",
   "theorems": [
    "C125_point_refused",
    "C125_shared_refused",
    "C125_outcome",
    "C125_own_neighbour",
    "C125_refused_refuted"
   ],
   "note": "Proved; that all degenerate faces are refused is refuted by a file with two such faces (C125_refused_refuted)."
  },
  {
   "property": "C126",
   "status": "partial",
   "theorems": [
    "C126_distance",
    "C126_value",
    "C126_positive",
    "C126_loaded",
    "C126_side",
    "C126_positive_refuted",
    "C126_middle",
    "C126_middle_refuted",
    "C126_apart",
    "C126_contraction",
    "C126_center",
    "C126_center_order_refuted",
    "C126_center_inside_refuted"
   ],
   "note": "Proved; refuted are: different points have a positive distance (C126_positive_refuted), the middle of finite points is finite (C126_middle_refuted), the center does not depend on the order of corners (C126_center_order_refuted) and lies in the triangle (C126_center_inside_refuted)."
  },
  {
   "property": "C127",
   "status": "partial",
   "theorems": [
    "C127_line",
    "C127_empty",
    "C127_percentage",
    "C127_ends",
    "C127_ends_refuted",
    "C127_sum_refuted"
   ],
   "note": "Proved; refuted are that 0.00% means none (C127_ends_refuted) and that the printed percentages add up to 100 (C127_sum_refuted)."
  },
  {
   "property": "C128",
   "status": "partial",
   "theorems": [
    "C128_line",
    "C128_even_refuted"
   ],
   "note": "Proved; refuted is that 0.00% means equal zones (C128_even_refuted)."
  },
  {
   "property": "C129",
   "status": "proved",
   "theorems": [
    "C129_stops",
    "C129_blank",
    "C129_split",
    "C129_remesh"
   ],
   "note": "Proved."
  },
  {
   "property": "C130",
   "status": "partial",
   "theorems": [
    "C130_zone",
    "C130_closed",
    "C130_bounds",
    "C130_order_refuted"
   ],
   "note": "Proved; refuted is that zones without faces do not matter (C130_order_refuted)."
  },
  {
   "property": "C131",
   "status": "proved",
   "theorems": [
    "C131_results",
    "C131_succeeds",
    "C131_others",
    "C131_stops",
    "C131_two_grids_one_file",
    "C131_one_directory",
    "C131_plain_names",
    "C131_one",
    "C131_grid_replaced",
    "C131_passed_over"
   ],
   "note": "The program over files, remesh.py:39-92, with a disk as a map from paths to texts. Results, other files, success and the state after an exception for all listings; the collisions of names, the results stored among the grids and the grid passed over are theorems of their own. -v at most once; links and '..' in paths are not modelled."
  },
  {
   "property": "C132",
   "status": "partial",
   "theorems": [
    "C132_smallest",
    "C132_none",
    "C132_order",
    "C132_apart",
    "C132_meet_refuted"
   ],
   "note": "Over real numbers. Smallest box, independence of order, and that boxes apart mean triangles apart are proved for all lists; the converse is refuted by two triangles on both sides of a diagonal."
  },
  {
   "property": "C133",
   "status": "partial",
   "theorems": [
    "C133_face",
    "C133_edge",
    "C133_refused",
    "C133_twice",
    "C133_lone_node",
    "C133_numbered_refuted"
   ],
   "note": "Exact state after a deletion for all sound grids (the condition kept by all transformations of the grid), refusal for all grids. The claim that numbers stay consecutive is refuted with a witness."
  }
 ]
}