{"id": "C01", "title": "store / load round trip", "statement": "Storing a consistent grid to a .dat file and loading that file into a fresh grid (with node merging) succeeds and yields the same zones in the same order with the same names, the same set of node positions in every zone, and, zone by zone and face by face in the same order, the same three corner positions and the same value of every stored variable; the grid title is preserved too.", "quantifier": "for every consistent grid (any number of zones, nodes, faces, variables), any names free of '=' and line breaks, any variable names free of quotes, commas, blanks and '='", "why_tests_cant": "The property ranges over all grids and all texts produced by the writer; a finite set of sample files exercises only a few layouts of zones sharing nodes.", "anchors": ["crysgsu/gsu/grid.py: Grid.store, Grid.load", "crysgsu/gsu/zone.py: get_nodes_coord_slice_str, get_faces_data_slice_str"]}
{"id": "C02", "title": "a loaded grid has consistent incidence", "statement": "If load succeeds and no face of the file has two coinciding corners, then every face has exactly three distinct nodes and three distinct edges (one per pair of its nodes), every edge has two distinct nodes and one or two faces, the lists node.Edges/edge.Nodes, node.Faces/face.Nodes and edge.Faces/face.Edges are mutual inverses without repetitions, and no two edges join the same pair of nodes.", "quantifier": "for every file text accepted by load, merging nodes", "why_tests_cant": "Consistency must hold for every mesh that can be written in the file, including meshes with zones sharing borders in arbitrary patterns.", "anchors": ["crysgsu/gsu/grid.py: load, link_node_face, complex_link_face_node_node_edge, find_edge, link_edge_face"]}
{"id": "C03", "title": "non-manifold meshes are rejected", "statement": "If in the file three different non-degenerate faces contain the same pair of (merged) nodes, load raises an exception; it never returns a grid in which an edge has more than two faces.", "quantifier": "for every file text", "why_tests_cant": "Needs all meshes with a pair of nodes shared by three or more faces, in any face order.", "anchors": ["crysgsu/gsu/grid.py: link_edge_face, load"]}
{"id": "C04", "title": "node merging on load", "statement": "After load with merging, two different nodes of the grid never have equal coordinates rounded to 10 digits, every node read from the file is represented by the grid node with the same rounded coordinates whose position is the one of its first occurrence in the file, and node GloIds are exactly 0..n-1 in list order. Without merging, the number of grid nodes is the sum of the NODES counts of the zones.", "quantifier": "for every file text accepted by load and both merge modes", "why_tests_cant": "An invariant over an unbounded sequence of insertions with lookups in a side index (bag of rounded coordinates).", "anchors": ["crysgsu/gsu/grid.py: find_near_node, add_node, load", "crysgsu/gsu/node.py: is_near"]}
{"id": "C05", "title": "load accepts only well-formed zones", "statement": "If load succeeds then every line outside zone blocks is a comment, a TITLE, a VARIABLES or a ZONE line, the five header lines after every ZONE line are NODES, ELEMENTS, DATAPACKING=BLOCK, ZONETYPE=FETRIANGLE and the VARLOCATION line matching the number of declared variables, every connectivity line has exactly three entries and each entry denotes an existing node of the zone (between 1 and NODES).", "quantifier": "for every file text", "why_tests_cant": "Quantifies over all malformed inputs.", "anchors": ["crysgsu/gsu/grid.py: load"]}
{"id": "C06", "title": "load replaces the previous contents", "statement": "Loading a file into a grid object that was already used gives the same result as loading it into a new grid object.", "quantifier": "for every previous state of the grid object and every file text", "why_tests_cant": "Depends on every earlier history of the object.", "anchors": ["crysgsu/gsu/grid.py: clear, load"]}
{"id": "C07", "title": "stored connectivity is self-contained", "statement": "In the file written by store, every connectivity entry of a zone is an index between 1 and the NODES value of this zone, and the coordinates written at this index are the coordinates of the corresponding corner of the face.", "quantifier": "for every grid with consistent zone node lists", "why_tests_cant": "Local indices are computed through a table shared between zones; stale entries from other zones only show up for particular sharing patterns.", "anchors": ["crysgsu/gsu/grid.py: store"]}
{"id": "C08", "title": "zones list exactly the nodes and edges of their faces", "statement": "After load and after every decomposition, a node (edge) occurs in the node (edge) list of a zone if and only if some face of this zone is incident to it, without repetitions and in the order of the grid lists, and every zone contains all nodes and edges of its faces.", "quantifier": "for every grid and every assignment of faces to zones", "why_tests_cant": "All face-to-zone assignments of all grids.", "anchors": ["crysgsu/gsu/grid.py: link_nodes_and_edges_to_zones"]}
{"id": "C09", "title": "decompositions partition the faces", "statement": "After decompose_mono, decompose_random, decompose_linear, decompose_farhat and decompose_hierarchical (when they return), every face of the grid belongs to the face list of exactly one zone exactly once, face.Zone is that zone, the zone lists contain no other faces, and the nodes, edges, connectivity, data and order of faces of the grid are unchanged.", "quantifier": "for every consistent grid, every zone count / level count, every random outcome and every previous decomposition", "why_tests_cant": "All grids and all sequences of re-decompositions.", "anchors": ["crysgsu/gsu/grid.py: decompose_mono, decompose_random, decompose_linear, decompose_hierarchical, decompose_farhat", "crysgsu/gsu/zone.py: add_face", "crysgsu/gsu/face.py: unlink_from_zone"]}
{"id": "C10", "title": "mono decomposition", "statement": "decompose_mono succeeds on every consistent grid and leaves exactly one zone, named 'mono', that holds all faces in grid order, all edges in grid order and all nodes that belong to some face.", "quantifier": "for every consistent grid and every previous decomposition, including fixed zones", "why_tests_cant": "All histories of previous decompositions.", "anchors": ["crysgsu/gsu/grid.py: decompose_mono"]}
{"id": "C11", "title": "linear decomposition is balanced and contiguous", "statement": "decompose_linear(count) with count >= 1 creates exactly count zones; concatenating their face lists in zone order gives the grid face list; zone sizes differ by at most one and are non-increasing.", "quantifier": "for every consistent grid and every count >= 1", "why_tests_cant": "All face counts and zone counts.", "anchors": ["crysgsu/gsu/grid.py: decompose_linear"]}
{"id": "C12", "title": "Farhat decomposition is balanced and keeps fixed zones", "statement": "decompose_farhat(count, fixed names) with count >= 1 never fails on a non-empty consistent grid, keeps exactly the zones whose name is in the list (with the same faces), and adds exactly count zones after them whose sizes differ by at most one and sum to the number of faces outside the fixed zones.", "quantifier": "for every non-empty consistent grid (connected or not), every count >= 1, every list of fixed zones", "why_tests_cant": "Disconnected remainders, arbitrary fixed zones and counts; the inner indexing path[fi] must never run out.", "anchors": ["crysgsu/gsu/grid.py: decompose_farhat, bfs_path"]}
{"id": "C13", "title": "BFS path enumerates exactly the admissible faces", "statement": "bfs_path(start, pred) returns each face of the grid that satisfies pred exactly once and no other face, and terminates.", "quantifier": "for every consistent grid, start face and predicate", "why_tests_cant": "All graphs, predicates and start faces.", "anchors": ["crysgsu/gsu/grid.py: bfs_path, bfs_path_connectivity_component, get_no_bfs_mark_face", "crysgsu/gsu/face.py: get_neighbour"]}
{"id": "C14", "title": "BFS components are connectivity components", "statement": "bfs_path_connectivity_component(start, pred) returns exactly the faces reachable from start through inner edges via faces satisfying pred; every prefix of the path is connected.", "quantifier": "for every consistent grid, start face and predicate, with all marks cleared", "why_tests_cant": "Reachability over all graphs.", "anchors": ["crysgsu/gsu/grid.py: bfs_path_connectivity_component"]}
{"id": "C15", "title": "Farhat zones are connected when the rest is", "statement": "In decompose_farhat, whenever the faces not yet assigned form a connected region at the moment a zone is filled, the new zone is connected through inner edges.", "quantifier": "for every consistent grid and count", "why_tests_cant": "All graphs.", "anchors": ["crysgsu/gsu/grid.py: decompose_farhat, bfs_path"]}
{"id": "C16", "title": "hierarchical decomposition: zone count and fixed zones", "statement": "decompose_hierarchical(levels, fixed) on a consistent grid returns normally, keeps the fixed zones with their faces, and produces at most 2^(levels-1) further zones; if every zone met has at least two faces distinguishable along some axis, exactly 2^(levels-1).", "quantifier": "for every consistent grid, sign functions, number of levels >= 1 and list of fixed zones", "why_tests_cant": "All grids, including planar ones whose faces cannot be separated along some axis.", "anchors": ["crysgsu/gsu/grid.py: decompose_hierarchical, split_zone, split_zone_metric"]}
{"id": "C17", "title": "split metric has no side effects", "statement": "split_zone_metric returns twice the number of edges that a split would cut (each cut edge is met from both sides) and leaves the zone assignment of all faces as it was.", "quantifier": "for every zone, pair of child zones and sign function", "why_tests_cant": "All inputs including degenerate sign functions.", "anchors": ["crysgsu/gsu/grid.py: split_zone_metric"]}
{"id": "C18", "title": "zone split is ordered by the sign and balanced", "statement": "When split_zone splits a zone, every face of the left child has a strictly smaller sign than every face of the right child, both children are non-empty, the relative order of faces is kept and the right child has at least half of the faces; with pairwise different signs the sizes differ by at most one.", "quantifier": "for every zone of at least two faces and every sign function", "why_tests_cant": "All sign functions and sizes, with ties.", "anchors": ["crysgsu/gsu/grid.py: split_zone"]}
{"id": "C19", "title": "zones adjacency matrix counts edges", "statement": "In the zones adjacency matrix entry (i,j) with i<>j is the number of edges whose two faces belong to zones i and j, entry (i,i) is the number of edges with both faces in zone i, entry (i,zc) is the number of edges whose only face is in zone i; the matrix is symmetric with zero corner.", "quantifier": "for every list of edges with one or two faces and every list of distinct zones covering them", "why_tests_cant": "All edge lists.", "anchors": ["crysgsu/gsu/zones_adjacency_matrix.py: __init__, inc, inc_border"]}
{"id": "C20", "title": "edge statistics add up", "statement": "edges_statistics returns the number of border, inner and cross edges as classified by is_border, is_inner and is_cross, and their sum is the number of edges.", "quantifier": "for every matrix built from a consistent grid", "why_tests_cant": "All grids.", "anchors": ["crysgsu/gsu/zones_adjacency_matrix.py: edges_statistics", "crysgsu/gsu/edge.py: is_border, is_cross, is_inner"]}
{"id": "C21", "title": "cross border queries of the adjacency matrix", "statement": "zone_cross_edges_count(i) is the number of cross edges with a face in zone i, zone_cross_borders_count(i) the number of other zones that share an edge with zone i, max_cross_border_len the largest number of edges shared by two different zones; border edges never count.", "quantifier": "for every consistent grid and zone index", "why_tests_cant": "All grids.", "anchors": ["crysgsu/gsu/zones_adjacency_matrix.py: zone_cross_edges_array, zone_cross_edges_count, zone_cross_borders_count, zone_max_cross_border_len, max_cross_border_len"]}
{"id": "C22", "title": "MPI border lists of neighbouring zones match", "statement": "In the files written by store_mpi, zone i lists a border with zone j if and only if zone j lists one with zone i, both lists have the same length and the k-th entries (local edge numbers) denote the same edge of the grid; every listed edge connects exactly these two zones and every such edge is listed.", "quantifier": "for every consistent decomposed grid and every pair of zones", "why_tests_cant": "Agreement of two independently computed lists for every mesh; mismatches would silently exchange wrong data.", "anchors": ["crysgsu/gsu/grid.py: store_mpi", "crysgsu/gsu/edge.py: is_connect_zones", "crysgsu/crys.py: get_mpi_borders"]}
{"id": "C23", "title": "MPI files cover the grid and use valid local numbers", "statement": "The files written by store_mpi, one per zone, contain every face GloId exactly once over all files; all local node and edge numbers are within the range of the file's node and edge lists and denote the nodes and edges of the faces concerned; CROSS-EDGES equals the total length of the border lists and MPI-BORDERS their number.", "quantifier": "for every consistent decomposed grid", "why_tests_cant": "All grids and decompositions.", "anchors": ["crysgsu/gsu/grid.py: store_mpi"]}
{"id": "C24", "title": "MPI file names can be recognised", "statement": "The name '<stem>_<zone number>_<timestamp>.cry' produced by store_mpi for a zone is accepted by is_filename_correct_crys_cry_file with the same stem, and dummy_split_filename recovers stem, zone number, timestamp and extension.", "quantifier": "for every stem, every zone number and every 12-digit timestamp", "why_tests_cant": "All stems (also containing underscores and digits) and all numbers.", "anchors": ["crysgsu/gsu/grid.py: store_mpi (685)", "crysgsu/utils.py: dummy_split_filename, is_filename_correct_crys_cry_file"]}
{"id": "C25", "title": "file name / timestamp split", "statement": "get_filename_and_timestamp_pair inverts appending '_' and a 12-digit timestamp; names without such a suffix are returned whole with the zero timestamp, and the returned timestamp always consists of 12 digits.", "quantifier": "for every string", "why_tests_cant": "All strings.", "anchors": ["crysgsu/utils.py: has_filename_timestamp, get_filename_and_timestamp_pair"]}
{"id": "C26", "title": "grouping by timestamps is a partition", "statement": "group_txt_files_by_timestamps returns one group per different timestamp, every file is in exactly one group, the one of its timestamp, and in input order; groups appear in order of first occurrence.", "quantifier": "for every list of file names", "why_tests_cant": "All lists.", "anchors": ["crysgsu/utils.py: group_txt_files_by_timestamps"]}
{"id": "C27", "title": "flatten", "statement": "flatten returns the non-list leaves of an arbitrarily nested list from left to right; the result contains no list and flattening it again changes nothing.", "quantifier": "for every nested list", "why_tests_cant": "Unbounded nesting.", "anchors": ["crysgsu/utils.py: flatten"]}
{"id": "C28", "title": "merge puts calculated data on the right faces", "statement": "When the txt files of one timestamp list every face number exactly once, the merged grid file holds for every face exactly the values written for its number, under the names of the txt header, and the geometry, connectivity and zones of the original grid file; the order in which the txt files are read does not matter.", "quantifier": "for every grid file and every family of txt files with disjoint covering numbers", "why_tests_cant": "All distributions of faces over files and all file orders.", "anchors": ["crysgsu/merge.py: merge", "crysgsu/gsu/grid.py: load_faces_calc_data, store, load"]}
{"id": "C29", "title": "loading calc data touches only the listed faces", "statement": "load_faces_calc_data changes only the data of faces whose number occurs in the file; these get exactly the variables and values of their last line; nodes, edges, zones and all other faces stay unchanged.", "quantifier": "for every grid in load order and every calc file", "why_tests_cant": "All files.", "anchors": ["crysgsu/gsu/grid.py: load_faces_calc_data"]}
{"id": "C30", "title": "split strategies", "statement": "split with strategy h<n> or n<k> produces mono decomposition for one domain without fixed zones, at most 2^n (plus fixed) zones for h<n>, exactly k zones including the fixed ones for n<k>; it raises for unknown strategies, for a fixed zone name missing in the grid, for k = 0 and for k <= number of fixed zones.", "quantifier": "for every grid, strategy string and list of fixed zones", "why_tests_cant": "All strategy strings, fixed zone lists (also with repeated names) and grids.", "anchors": ["crysgsu/split.py: split"]}
{"id": "C31", "title": "recovery factor completion", "statement": "After split every face has a RecoveryFactor: its own value if the file has one, the given default otherwise; all other data are unchanged.", "quantifier": "for every grid and default value", "why_tests_cant": "All grids.", "anchors": ["crysgsu/split.py: split (64-70)"]}
{"id": "C32", "title": "neighbour exchange delivers the owner's value", "statement": "After exchange(name) on all ranks, on every rank and for every cross edge of its zone the ghost face across the edge holds the value the owning rank had for this face before the exchange, and data of the rank's own faces is unchanged.", "quantifier": "for every decomposed grid, every initial data on the ranks and every delivery order of the messages", "why_tests_cant": "All grids, data and MPI schedules.", "anchors": ["crysgsu/crys.py: get_mpi_borders, put_to_superbuffer, start_exchanges, get_from_superbuffer, exchange", "crysgsu/gsu/zone.py: get_real_face, get_ghost_face"]}
{"id": "C33", "title": "gathered ice heights return to their faces", "statement": "In crys.remesh, the value of ice height sent by rank i for the j-th face of its zone is written to the j-th face of zone i.", "quantifier": "for every distribution of faces over zones", "why_tests_cant": "All tuples of zone sizes.", "anchors": ["crysgsu/crys.py: remesh"]}
{"id": "C34", "title": "divide_face keeps the grid consistent", "statement": "divide_face(face, p) with p different (after rounding) from all nodes replaces the face by three faces (sharing the new node) with the data and zone of the old one; the incidence structure remains consistent, counts change by +1 node, +3 edges, +2 faces, face GloIds remain a permutation of 0..n-1, and everything not incident to the face is unchanged.", "quantifier": "for every consistent grid, face and point", "why_tests_cant": "All meshes and positions, arbitrary sequences of operations.", "anchors": ["crysgsu/gsu/grid.py: divide_face, del_face"]}
{"id": "C35", "title": "cut_single_edge keeps the grid consistent", "statement": "cut_single_edge on a border edge with a new point replaces the adjacent face by two faces and the edge by three edges, keeps the incidence structure consistent, changes counts by +1 node, +2 edges, +1 face, and keeps all GloIds a permutation; on other edges it returns False and changes nothing.", "quantifier": "for every consistent grid, edge and point different (after rounding) from all nodes", "why_tests_cant": "All meshes, sequences of operations.", "anchors": ["crysgsu/gsu/grid.py: cut_single_edge, del_face, del_edge"]}
{"id": "C36", "title": "cut_edge keeps the grid consistent", "statement": "cut_edge on an inner edge with a new point replaces the two adjacent faces by four and the edge by four edges, each new face with the data and in the zone of the face it was cut from; incidence stays consistent, counts change by +1 node, +3 edges, +2 faces, GloIds remain a permutation; on other edges it returns False and changes nothing.", "quantifier": "for every consistent grid, edge and point different (after rounding) from all nodes", "why_tests_cant": "All meshes; edges between two zones.", "anchors": ["crysgsu/gsu/grid.py: cut_edge"]}
{"id": "C37", "title": "collapse_face is an edge flip", "statement": "collapse_face(face) with an inner longest edge replaces this edge by the other diagonal of the quadrilateral; counts and GloIds are unchanged, incidence stays consistent and no two edges join the same nodes; with a border longest edge it returns False and changes nothing.", "quantifier": "for every consistent grid and face", "why_tests_cant": "All meshes, including those where the other diagonal already exists.", "anchors": ["crysgsu/gsu/grid.py: collapse_face", "crysgsu/gsu/face.py: max_edge_from_face"]}
{"id": "C38", "title": "collapse_edge keeps numbering and incidence", "statement": "collapse_edge on an inner edge merges its two nodes at the middle point, removes two faces, three edges and one node, keeps the incidence structure consistent and the GloIds of nodes, edges and faces permutations of 0..n-1.", "quantifier": "for every consistent grid and inner edge", "why_tests_cant": "All meshes; positions of the removed objects in the lists.", "anchors": ["crysgsu/gsu/grid.py: collapse_edge, del_node", "crysgsu/gsu/node.py: replacing_node"]}
{"id": "C39", "title": "cut_edge_with_two_nodes keeps the grid consistent", "statement": "cut_edge_with_two_nodes with two different new points replaces each face adjacent to the edge by three faces carrying its data, keeps incidence consistent and GloIds permutations, and changes counts by +2 nodes and +4 edges +2 faces (border edge) or +6 edges +4 faces (inner edge).", "quantifier": "for every consistent grid and edge", "why_tests_cant": "All meshes.", "anchors": ["crysgsu/gsu/grid.py: cut_edge_with_two_nodes"]}
{"id": "C40", "title": "border marking", "statement": "mark_all_fixed_nodes marks exactly the nodes of border edges, number_of_border_nodes is the number of marked nodes, and calling it again changes nothing.", "quantifier": "for every consistent grid", "why_tests_cant": "All grids.", "anchors": ["crysgsu/gsu/grid.py: mark_all_fixed_nodes"]}
{"id": "C41", "title": "triangles cloud contains every triangle once", "statement": "The leaves of a TrianglesCloud built from a non-empty list are lists of exactly one triangle and together are a permutation of the list, construction terminates, and the box of every (sub)cloud contains all its triangles.", "quantifier": "for every non-empty list of triangles", "why_tests_cant": "All lists, with equal centroids too.", "anchors": ["crysgsu/geom/triangles_cloud.py: __init__, build_subclouds_tree, separate_triangles_list", "crysgsu/geom/box.py: from_triangles"]}
{"id": "C42", "title": "cloud pruning loses no intersection", "statement": "first_intersection_with_segment returns a triangle of the cloud that intersects the segment if some triangle of the cloud does, and None otherwise.", "quantifier": "for every list of triangles and every segment (exact arithmetic)", "why_tests_cant": "All geometric configurations.", "anchors": ["crysgsu/geom/triangles_cloud.py: first_intersection_with_segment", "crysgsu/geom/box.py: is_intersect_with_segment", "crysgsu/geom/triangle.py: intersection_with_segment"]}
{"id": "C43", "title": "segment-triangle intersection is exact in general position", "statement": "For a segment not parallel to the triangle plane, intersection_with_segment returns exactly the common point of the triangle and the segment, or [] if there is none.", "quantifier": "for all triangles and segments with non-zero determinant (exact arithmetic)", "why_tests_cant": "All real configurations.", "anchors": ["crysgsu/geom/triangle.py: intersection_with_segment"]}
{"id": "C44", "title": "box predicates are conservative", "statement": "A box built from points contains all of them and is the smallest such box; is_intersect_with_segment / is_potential_intersect_with_box return False only if there is no common point, and box-box test is symmetric.", "quantifier": "for all non-empty point lists, segments and boxes", "why_tests_cant": "All real configurations.", "anchors": ["crysgsu/geom/box.py"]}
{"id": "C45", "title": "vector comparison is a usable order", "statement": "The comparison of vectors used by sort is a strict weak order (irreflexive, asymmetric, transitive) and equality is an equivalence.", "quantifier": "for all vectors", "why_tests_cant": "All triples of vectors.", "anchors": ["crysgsu/geom/vect.py: __lt__, __eq__"]}
{"id": "C46", "title": "accreted volume of a displaced triangle", "statement": "displaced_triangle_volume of a triangle moved by the same translation equals the prism volume area * height; it is non-negative, zero for no displacement, and additive pieces are the tetrahedra volumes.", "quantifier": "for all triangles and displacements (exact arithmetic)", "why_tests_cant": "All real configurations.", "anchors": ["crysgsu/geom/utils.py: tetrahedron_volume, displaced_triangle_volume"]}
{"id": "C47", "title": "heights smoothing conserves ice", "statement": "One smoothing iteration of heights redistributes ice chunks over inner edges without changing their total, never moves ice from a lower to a higher face, and does nothing when all heights are equal.", "quantifier": "for all meshes, heights and smoothing parameters (exact arithmetic)", "why_tests_cant": "All meshes and values.", "anchors": ["crysgsu/remeshing.py: heights_smoothing"]}
{"id": "C48", "title": "number of remesh steps", "statement": "calculate_nsteps returns a value between nsteps_min and nsteps_max, raises if nsteps_min > nsteps_max, and the returned number satisfies the height/side condition for all faces except at most the allowed ignored part whenever nsteps_max allows it.", "quantifier": "for all meshes and parameters", "why_tests_cant": "All value distributions.", "anchors": ["crysgsu/remeshing.py: calculate_nsteps"]}
{"id": "C49", "title": "remaining ice and chunks", "statement": "With redistribution on, rest_ice of every face stays non-negative during all steps; without redistribution and smoothing, chunks of all steps are equal shares whose sum is the target ice.", "quantifier": "for all numbers of steps and all accreted volumes", "why_tests_cant": "All histories.", "anchors": ["crysgsu/remeshing.py: calc_ice_chunks, move_nodes, __call__"]}
{"id": "C50", "title": "ice shift solves the volume equation", "statement": "Whenever define_ice_shifts uses the quadratic formula, the chosen shift h is non-negative and satisfies a*h + b*h*h = chunk; with positive area and non-negative chunk the shift is always non-negative.", "quantifier": "for all coefficients (exact arithmetic)", "why_tests_cant": "All reals.", "anchors": ["crysgsu/remeshing.py: define_ice_shifts"]}
{"id": "C51", "title": "droplet flight terminates with a valid verdict", "statement": "fly terminates after at most max_steps points, the trajectory starts in the start point, all but its last point are inside the air box, 'C' is returned only together with a face hit by the last segment, and no earlier segment hits a face.", "quantifier": "for every air field, start data, surface and max_steps >= 1", "why_tests_cant": "All trajectories.", "anchors": ["crysgsu/drops.py: fly, fly_step"]}
{"id": "C52", "title": "secondary impingement accounts for every droplet", "statement": "After drops, MImp2 * area of a face is the total stall mass of all droplets whose flight ended on this face.", "quantifier": "for every grid and set of flights", "why_tests_cant": "Several droplets hitting the same face.", "anchors": ["crysgsu/drops.py: drops (287-291)"]}
{"id": "C53", "title": "nearest neighbour transfer", "statement": "find_nearest, face_centered_interpolation and lazurit_add_beta take the value of a source item at minimal distance (the first such one for the array versions), and change no other field.", "quantifier": "for all source and target sets", "why_tests_cant": "All point sets.", "anchors": ["crysgsu/drops.py: find_nearest", "crysgsu/convert/interpolate.py: face_centered_interpolation", "crysgsu/convert/lazurit_add_beta_from_ansys.py"]}
{"id": "C54", "title": "Lazurit import: triangles and data of every quad", "statement": "The file written by lazurit_to_crystal has two triangles per cell of the structured block, covering the cell with its four corner nodes, all indices in range, and both triangles carry the data of their cell.", "quantifier": "for all block sizes", "why_tests_cant": "All sizes; square and non-square blocks.", "anchors": ["crysgsu/convert/lazurit_to_crystal.py: main (195-202), double_list, double_and_neg_list"]}
{"id": "C55", "title": "ANSYS quads to triangles", "statement": "LoadNodesData turns a quad with four different corners into the two triangles of a diagonal, a quad with two equal corners into one triangle of its three different corners, keeping (or reversing, if requested) the orientation; face data is the mean of corner data.", "quantifier": "for all quads", "why_tests_cant": "All coincidence patterns.", "anchors": ["crysgsu/convert/gsu_converter.py: LoadNodesData, ConvertDataFromNodesToFaces"]}
{"id": "C56", "title": "ANSYS filters keep rows and columns aligned", "statement": "filter_with_mask keeps exactly the masked columns in order; filter_zones keeps exactly the title, variables and the blocks of the requested zones; filter_variables selects the same columns in header and rows.", "quantifier": "for all files", "why_tests_cant": "All files.", "anchors": ["crysgsu/convert/ansys_to_crystal.py: filter_with_mask, variables_names_and_mask, filter_zones, filter_variables"]}
{"id": "C57", "title": "border nodes stay in place under smoothing", "statement": "apply_shifts with fix_boundary_nodes moves every non-border node by its shift and leaves border nodes in place; it raises when the number of shifts differs from the number of nodes.", "quantifier": "for all grids and shift lists", "why_tests_cant": "All grids.", "anchors": ["crysgsu/smoothing.py: move_node, apply_shifts"]}
{"id": "C58", "title": "stall data removal", "statement": "convert_grid_stall_to_check_point removes exactly the five Stall fields from every face; clean_t_hw_hi sets T, Hw, Hi of every face to 0 and nothing else.", "quantifier": "for all grids", "why_tests_cant": "All data dictionaries.", "anchors": ["crysgsu/gsu/grid.py: convert_grid_stall_to_check_point, clean_t_hw_hi"]}
{"id": "C59", "title": "total csv report", "statement": "merge writes a csv whose time column is that of the first csv file and whose other entries are the entrywise sums over all csv files. Tables of different heights are refused with ValueError, except that (as refuted by an example) a table of one row after the first is silently added to every row.", "quantifier": "for all families of csv tables of one shape", "why_tests_cant": "All tables.", "anchors": ["crysgsu/merge.py: merge (78-89)"]}
{"id": "C60", "title": "sequences of grid transformations keep the grid consistent", "statement": "Starting from any loaded non-degenerate grid, any sequence of decompositions, divide_face, cut_single_edge and same-zone cut_edge calls with new points, in any order, succeeds and keeps incidence, zone membership and numbering consistent.", "quantifier": "for all sequences of operations", "why_tests_cant": "Unbounded histories.", "anchors": ["crysgsu/gsu/grid.py"]}
{"id": "C61", "title": "normalised weighted sum", "statement": "wsum of vectors with positive weights is a convex combination: it lies in every box containing the vectors, and equals the common vector if all are equal.", "quantifier": "for all lists of equal length and positive weights (exact arithmetic)", "why_tests_cant": "All reals.", "anchors": ["crysgsu/remeshing.py: wsum, zipwith"]}
{"id": "C62", "title": "explosion of zones", "statement": "move_from_mean_point moves every node of a zone by the same vector k*(zone mean - grid mean), so the shape of each zone is preserved, when no node is shared between zones.", "quantifier": "for all grids loaded without merging and all k (exact arithmetic)", "why_tests_cant": "All grids.", "anchors": ["crysgsu/gsu/grid.py: move_from_mean_point"]}
{"id": "C63", "title": "consecutive exchanges keep variables apart", "statement": "When crys.py exchanges several variables one after another ('T', 'Hi', 'Hw') with the same buffers, after the last exchange every ghost face holds, for each exchanged variable, the value its owner had for this variable.", "quantifier": "for every decomposed grid, initial data, list of variables, interleaving of ranks and delivery order", "why_tests_cant": "Whether the send buffer is read before it is filled again depends on the MPI library's timing.", "anchors": ["crysgsu/crys.py: exchange, start_exchanges, put_to_superbuffer, lines 208-216"]}
{"id": "C64", "title": "number of steps is the least one", "statement": "calculate_nsteps returns the least number of steps, not below nsteps_min, for which the height/side condition holds for all faces but the allowed part, if this number does not exceed nsteps_max.", "quantifier": "for all meshes and parameters", "why_tests_cant": "All value distributions; small meshes behave differently from large ones.", "anchors": ["crysgsu/remeshing.py: calculate_nsteps"]}
{"id": "C65", "title": "even ice on a flat surface", "statement": "On a flat surface with the same ice height H on all faces (and null space smoothing off) the remesher ends without exceptions, moves every node by exactly H along the surface normal whatever the number of steps and the smoothing options, leaves no rest of ice and clears Hi.", "quantifier": "for all flat grids, heights, numbers of steps and smoothing options (exact arithmetic, redistribution on)", "why_tests_cant": "All grids and options; every phase of every step takes part.", "anchors": ["crysgsu/remeshing.py: __call__, remesh_step"]}
{"id": "C66", "title": "length of node moves", "statement": "In one remesh step every node moves along its ice direction, which never gets longer than one by smoothing of normals, by its non-negative ice shift; so no node moves farther than its ice shift, and points that are not nodes of the grid stay.", "quantifier": "for all grids, options with positive nsmooth_k and all states (exact arithmetic)", "why_tests_cant": "All reals and meshes.", "anchors": ["crysgsu/remeshing.py: init_ice_dirs, normals_smoothing, move_nodes, remesh_step"]}
{"id": "C67", "title": "options of the remesher are usable", "statement": "A remesh of a valid grid ends without exceptions also with null space smoothing (nss_steps > 0) and in the mode pseudo_2d_oz.", "quantifier": "for all valid grids", "why_tests_cant": "Claims over all grids.", "anchors": ["crysgsu/remeshing.py: null_space_smoothing, clusterize_nodes_for_pseudo_2d_oz", "crysgsu/smoothing.py: NullSpaceSmoothing.smoothing"]}
{"id": "C68", "title": "balance of ice of a run", "statement": "After a remesh with redistribution the target ice of a face is its area times the given Hi; the rest and the grown ice are not negative, together they are at least the target, and exactly the target if something is left; Hi of all faces is cleared.", "quantifier": "for all grids, heights and numbers of steps (exact arithmetic)", "why_tests_cant": "All histories.", "anchors": ["crysgsu/remeshing.py: __call__, move_nodes, correction_by_area"]}
{"id": "C69", "title": "drag does not increase relative speed", "statement": "One fly_step moves a droplet by v*dt, changes its velocity by a positive multiple of (v_air - v) given by the drag law, and never increases |v - v_air|.", "quantifier": "for every velocity different from that of the air, positive diameter and positive time step", "why_tests_cant": "All velocities, diameters and time steps; instability appears only for small droplets.", "anchors": ["crysgsu/drops.py: fly_step"]}
{"id": "C70", "title": "a flight always ends with a verdict", "statement": "fly returns one of its four verdicts and raises no exception.", "quantifier": "for every air field, surface, start point, velocity and positive diameter", "why_tests_cant": "The exceptional velocities are a set of measure zero.", "anchors": ["crysgsu/drops.py: fly_step, fly"]}
{"id": "C71", "title": "drops: one trajectory per wet face, other data untouched", "statement": "After drops every face with Stall above the threshold has exactly one trajectory, in the order of faces, computed on the whole surface; faces stay in place; only the stall fields, T, Hw, Hi and MImp2 change; MImp2 changes only on faces where a droplet landed.", "quantifier": "for every surface, air field and options for which drops returns", "why_tests_cant": "All surfaces; the loop modifies the faces it iterates over.", "anchors": ["crysgsu/drops.py: drops", "crysgsu/gsu/grid.py: convert_grid_stall_to_check_point, clean_t_hw_hi"]}
{"id": "C72", "title": "heat transfer coefficient and recovery factor", "statement": "calculate_htc_recovery_factor computes for every node a recovery factor rf and a coefficient htc with T_static = T_air + rf*v^2/(2*cp) and htc*(T_surface - T_static) = -flux; it raises ZeroDivisionError exactly when v = 0, cp = 0 or T_surface = T_static.", "quantifier": "for all free stream parameters and node values (exact arithmetic)", "why_tests_cant": "All real inputs, including the exceptional surfaces.", "anchors": ["crysgsu/convert/ansys_to_crystal.py: calculate_htc_recovery_factor"]}
{"id": "C73", "title": "clean-up of converter zones", "statement": "After DeleteExtraNodes and RestoreNodesIndices a zone has exactly the nodes used by its faces and the links written by Export lead to the corners of the faces; ReplaceNode puts the new node everywhere in place of the old one and changes nothing else.", "quantifier": "for all zones", "why_tests_cant": "All zones, including nodes used by no face.", "anchors": ["crysgsu/convert/gsu_converter.py: ReplaceNode, RestoreNodesIndices, DeleteExtraNodes, Export"]}
{"id": "C74", "title": "pairs of Lazurit files", "statement": "lazurit_to_crystal pairs the grid file and the solution file of every block whatever the order of the directory listing, ignores other files, and accepts nothing else.", "quantifier": "for all sets of block names and all listings", "why_tests_cant": "All orders of listing and all names.", "anchors": ["crysgsu/convert/lazurit_to_crystal.py: main (119-146)"]}
{"id": "C75", "title": "requested variables survive filtering", "statement": "filter_variables keeps every requested variable that the file declares and no other variable, so that running it on its own output changes nothing.", "quantifier": "for all files and requested names", "why_tests_cant": "All headers, with blanks and similar names.", "anchors": ["crysgsu/convert/ansys_to_crystal.py: is_variable_names_match, variables_names_and_mask, filter_variables"]}
{"id": "C76", "title": "merging of fensap, drop3d and adiabatic files", "statement": "The merged file has for every node of the fensap file its coordinates, its heat flux, shear stress and temperature, and the collection efficiency and the static temperature of the same node in the other two files.", "quantifier": "for all triples of files", "why_tests_cant": "All orders of nodes, zones and variables.", "anchors": ["crysgsu/convert/ansys_to_crystal.py: filter_variables, merge_fensap_drop3d_adiabatic"]}
{"id": "C77", "title": "node data to face data file", "statement": "data_from_nodes_to_faces writes a file that gsu loads: it has the zones of the source file with their nodes, the triangles of every quad and, for every face, means of the values of its corners.", "quantifier": "for all files with nine columns and quads, and any way of writing numbers", "why_tests_cant": "All files.", "anchors": ["crysgsu/convert/gsu_converter.py: LoadNodesData, ConvertDataFromNodesToFaces, Export", "crysgsu/convert/ansys_to_crystal.py: data_from_nodes_to_faces", "crysgsu/gsu/grid.py: load"]}
{"id": "C78", "title": "short zones are reported", "statement": "A requested zone with fewer rows than it declares makes filter_zones raise an exception.", "quantifier": "for all files", "why_tests_cant": "All places of the short zone in a file.", "anchors": ["crysgsu/convert/ansys_to_crystal.py: filter_zones, get_zone_nodes_and_elements_count"]}
{"id": "C79", "title": "the air field is read completely", "statement": "read_vel_field_from_file returns a space with exactly the samples (point, velocity) of the rows of the brick zones of the file, in order, and its box; incomplete files are reported by an exception and never give a smaller set of samples.", "quantifier": "for all files with any sequence of head lines, brick zones and other zones, and any way of writing numbers", "why_tests_cant": "All files and all places where lines may be missing.", "anchors": ["crysgsu/drops.py: read_vel_field_from_file (177-226)", "crysgsu/drops.py: Space.__init__"]}
{"id": "C80", "title": "the trajectories file is a grid file", "statement": "The file <out>.tr.dat of drops is a well-formed grid file with one zone for every trajectory, named by the global number of its face, with the points of the trajectory as nodes and one element for every leg; it can be loaded by Grid.load.", "quantifier": "for all runs of drops and any way of writing numbers", "why_tests_cant": "All runs and all grids.", "anchors": ["crysgsu/drops.py: drops (264-281)", "crysgsu/geom/trajectory.py: dump (94-116)", "crysgsu/gsu/grid.py: load"]}
{"id": "C81", "title": "every accepted grid can be stored and read again", "statement": "A grid read from a file with at least one face and without degenerate faces can always be stored, and the stored text is accepted by load in any state and gives a grid with the same title, zones, faces, corners, variables and values.", "quantifier": "for all files accepted by load", "why_tests_cant": "All files; composition of two text formats.", "anchors": ["crysgsu/gsu/grid.py: load, store"]}
{"id": "C82", "title": "remesh.py from file to file", "statement": "remesh.py stores, for every accepted grid file, a file with the title, zones and faces of the input, the new positions of corners, Hi = 0 and the other variables unchanged; on a flat surface with even ice the corners are moved along the normal by the height of the ice.", "quantifier": "for all files, all options of the remesher, and any rounding of coordinates to text", "why_tests_cant": "All files and options.", "anchors": ["crysgsu/remesh.py: main (77-92)", "crysgsu/remeshing.py: Remesher.__call__", "crysgsu/gsu/grid.py: load, store"]}
{"id": "C83", "title": "drops.py from files to files", "statement": "drops stores a grid file with the surface of the input, T, Hw and Hi equal to zero, no data about stall, MImp2 on the faces where droplets landed, and other data unchanged, and a file with the trajectories; if some droplet landed then MImp2 is in the stored file.", "quantifier": "for all grid files and air files, and all parameters", "why_tests_cant": "All files and all flights.", "anchors": ["crysgsu/drops.py: drops (231-300)", "crysgsu/gsu/grid.py: load, store, set_stall_d, clean_t_hw_hi, check"]}
{"id": "C84", "title": "names of remeshed files", "statement": "The file NAME_r_TIMESTAMP.dat is remeshed into NAME_TIMESTAMP.dat in the output directory, a name from which the same base name and timestamp are read; different inputs are stored under different names.", "quantifier": "for all names and timestamps", "why_tests_cant": "All names.", "anchors": ["crysgsu/remesh.py: main (83-92)", "crysgsu/utils.py: get_filename_and_timestamp_pair"]}
{"id": "C85", "title": "intersection of two triangles", "statement": "Triangle.intersection_with_triangle returns points exactly if the two triangles have a common point; the points are those where a side of one triangle meets the other one, every common point is between two of them; the answer does not depend on the order of the two triangles.", "quantifier": "for all pairs of triangles", "why_tests_cant": "A continuum of positions, including degenerate ones.", "anchors": ["crysgsu/geom/triangle.py: Triangle.intersection_with_triangle, intersection_with_segment", "crysgsu/geom/vect.py: Vect.__eq__"]}
{"id": "C86", "title": "intersection of two clouds of triangles", "statement": "TrianglesCloud.intersection_with_triangles_cloud reports, for every pair of triangles of the two clouds with common points, both triangles with these points, once, and nothing else; pairs skipped by the boxes have no common points.", "quantifier": "for all pairs of non-empty lists of triangles", "why_tests_cant": "All trees of boxes and all positions.", "anchors": ["crysgsu/geom/triangles_cloud.py: TrianglesCloud.intersection_with_triangles_cloud", "crysgsu/geom/box.py: Box.is_potential_intersect_with_box"]}
{"id": "C87", "title": "point in triangle", "statement": "point_in_triangle returns 0 for points outside of the triangle, 1 for corners, 2 for points on sides and 3 for inner points.", "quantifier": "for all triangles and points", "why_tests_cant": "A continuum of triangles, sizes and points.", "anchors": ["crysgsu/geom/triangle.py: Triangle.point_in_triangle"]}
{"id": "C88", "title": "equality of triangles", "statement": "Two triangles are equal exactly if they have the same corners in any order; the equality is reflexive and symmetric.", "quantifier": "for all pairs of triangles", "why_tests_cant": "All positions of corners, including coincident ones and those near the tolerance.", "anchors": ["crysgsu/geom/triangle.py: Triangle.__eq__"]}
{"id": "C89", "title": "import of stored grids by the converter", "statement": "Grid.Import of the converter reads a file stored by Grid.store and gives all zones of the grid with their titles, nodes, faces and the data HTC, Beta, TauX, TauY, TauZ of faces; it ends on every text; it also reads what Export of the same class writes.", "quantifier": "for all grids, all texts, all lists of zones", "why_tests_cant": "All numbers of zones, nodes and faces, all names of zones, all sets of variables.", "anchors": ["crysgsu/convert/gsu_converter.py: Grid.Import, Grid.Export", "crysgsu/gsu/grid.py: Grid.store"]}
{"id": "C90", "title": "calc data file", "statement": "The file written by store_faces_calc_data and loaded by load_faces_calc_data into the same grid gives every face its own T, Hw and Hi, each increased by the random number drawn for it, and changes no node, edge, face or zone.", "quantifier": "for all grids with global numbers of faces, all random numbers", "why_tests_cant": "All grids and all random numbers.", "anchors": ["crysgsu/gsu/grid.py: Grid.store_faces_calc_data, Grid.load_faces_calc_data", "crysgsu/gsu/face.py: Face.get_glo_id_t_hw_hi_str"]}
{"id": "C91", "title": "options of split", "statement": "The program split takes the strategy from the command line, else from the json file, else one domain; the zones of all elements of the heating system of the json file are fixed zones and stay in the result with their faces; the recovery factor is that of the json file or 1.0; the number of zones is the one asked; all strategies of the help text are accepted. If the elements of the heating system are not a list, or the zone of an element is not a string, the program fails and writes nothing; empty elements count as none.", "quantifier": "for all grids, json files and command lines", "why_tests_cant": "All combinations of options, json values and grids.", "anchors": ["crysgsu/split.py: extract_strategy_from_json, extract_fixed_zones_from_json, extract_recovery_factor_from_json, split, main"]}
{"id": "C92", "title": "options of the remesher", "statement": "Every option of the remesher has the value of its key of the json file, or the default value if there is no such key, independent of other keys; the grid is remeshed with these values, and they are printed under the keys of the json file.", "quantifier": "for all json files", "why_tests_cant": "Eighteen options, all subsets of them, and all values.", "anchors": ["crysgsu/remeshing.py: TongRemesher.__init__, set_default_options, try_to_read_options, print_options", "crysgsu/remesh.py"]}
{"id": "C93", "title": "triangles in one plane", "statement": "Triangle.in_one_plane is true exactly if all corners of the other triangle are in the plane of this triangle; it does not depend on the order of the triangles.", "quantifier": "for all pairs of triangles", "why_tests_cant": "A continuum of triangles.", "anchors": ["crysgsu/geom/triangle.py: Triangle.in_one_plane, point_in_one_plane"]}
{"id": "C94", "title": "corners of triangles", "statement": "Vect.get_angle_in_deg is the angle between two vectors in degrees; all_corners_smaller is true exactly if the three angles of the triangle (180 degrees together) are smaller than the given one; is_good returns the quality level of a triangle.", "quantifier": "for all vectors, triangles and angles", "why_tests_cant": "A continuum of triangles and angles.", "anchors": ["crysgsu/geom/vect.py: Vect.angle_cos, get_angle_in_rad, get_angle_in_deg", "crysgsu/geom/triangle.py: Triangle.all_corners_smaller, is_good"]}
{"id": "C95", "title": "ANSYS program from files to file", "statement": "ansys_to_crystal reads three ANSYS files and stores one grid: it has exactly the zones of the list, in the order of the first file; each node has the position and the friction of the first file, Beta of the second, and the recovery factor and heat transfer coefficient that explain the temperatures and the flux; each quad gives triangles; each face has the means of its corners. If three faces share an edge, or there is no face, nothing is stored.", "quantifier": "for all triples of well formed ANSYS files with the needed variables among others, lists of zones and parameters", "why_tests_cant": "Any number of zones, rows, other variables and columns, and all numbers; the program composes five passes over text files with loading and storing a grid.", "anchors": ["crysgsu/convert/ansys_to_crystal.py: __main__, filter_zones, filter_variables, merge_fensap_drop3d_adiabatic, calculate_htc_recovery_factor, data_from_nodes_to_faces", "crysgsu/convert/gsu_converter.py: LoadNodesData, Export", "crysgsu/gsu/grid.py: Grid.load, Grid.store"]}
{"id": "C96", "title": "interpolation programs from files to file", "statement": "interpolate.py stores a file with the title, zones, faces and corners of the target grid, where every face has T and Hw of a source face with the nearest middle and its own values of all other variables; lazurit_add_beta_from_ansys does the same with Beta and the first nearest face; a source without faces is refused.", "quantifier": "for all pairs of accepted grid files with faces (target without degenerate faces)", "why_tests_cant": "All pairs of grids, and all states in which the result is read.", "anchors": ["crysgsu/convert/interpolate.py: face_centered_interpolation, __main__", "crysgsu/convert/lazurit_add_beta_from_ansys.py: __main__", "crysgsu/gsu/face.py: Face.__getitem__, __setitem__"]}
{"id": "C97", "title": "interpolation does not lose data of the target", "statement": "If the source grid does not have one of the variables T, Hw (Beta for lazurit_add_beta_from_ansys), the program reports it or leaves the values of the target as they were.", "quantifier": "for all pairs of accepted grid files", "why_tests_cant": "Depends on which variables both files have; the loss is silent.", "anchors": ["crysgsu/convert/interpolate.py: face_centered_interpolation", "crysgsu/convert/lazurit_add_beta_from_ansys.py: __main__", "crysgsu/gsu/face.py: Face.__getitem__"]}
{"id": "C98", "title": "lazurit_to_crystal from directory to file", "statement": "For a directory with the two wall files of every block, the program stores a file that any state reads back as one zone for every block (in the order of names of files), with the nodes of the block, two triangles for every cell and the values of the cells in the order of the file, the friction components with opposite sign. A grid is stored only if the files of all blocks are complete; a block with more than one layer, three triangles on an edge, or no cell at all is refused.", "quantifier": "for all directories, numbers and sizes of blocks, texts of files, orders of listing", "why_tests_cant": "The order of listing, the number of blocks, sizes and layout of lines are unbounded; damage to any line of any file must be noticed.", "anchors": ["crysgsu/convert/lazurit_to_crystal.py: __main__, get_block_name, add_lines, leap_lines", "crysgsu/gsu/grid.py: Grid.load, Grid.store"]}
{"id": "C99", "title": "different Lazurit blocks have zones with different names", "statement": "Two different blocks of a directory become zones with different names.", "quantifier": "for all directories accepted by lazurit_to_crystal.py", "why_tests_cant": "Depends on the names of files; nothing is reported when two zones have one name.", "anchors": ["crysgsu/convert/lazurit_to_crystal.py: get_block_name, __main__"]}
{"id": "C100", "title": "Storing a loaded grid again gives the same file", "statement": "Loading a stored file and storing it again gives a file equal to the first byte for byte.", "quantifier": "for all grids and all files that load", "why_tests_cant": "test.py compares two files of one grid; the order of nodes depends on which nodes are corners, on merging and on the order of zones.", "anchors": ["crysgsu/gsu/grid.py: Grid.load, Grid.store", "crysgsu/test.py: case_001"]}
{"id": "C101", "title": "A law by a table follows its table", "statement": "LinearLaw accepts exactly the tables with two rows or more, equal lengths and ascending arguments; the law passes through all rows, is linear between neighbours, goes on with the first and the last line outside, stays within the values of the table inside, is monotone if the table is and is nowhere steeper than the table. FuncLaw passes through the table if some choice of parameters does and curve_fit minimises the sum of squares. A law fitted with the cubic or the quartic function is a polynomial and passes through every table that lies on such a polynomial; a constant law gives its constant everywhere.", "quantifier": "for all tables and all real arguments", "why_tests_cant": "Tables and arguments are unbounded.", "anchors": ["crysgsu/phys/laws.py: LinearLaw, FuncLaw, _cubic"]}
{"id": "C102", "title": "The tables of laws.py give sensible values", "statement": "All laws give values above zero at every temperature and energies of all tables are in joules per kilogram. The laws by the tables are steady in the temperature (viscosity, heats of vaporization and sublimation fall, the capacity of ice rises, that of water never rises); that of air is not.", "quantifier": "for all real temperatures", "why_tests_cant": "A law is a function of a real number; extrapolation is silent.", "anchors": ["crysgsu/phys/laws.py: tables"]}
{"id": "C103", "title": "The C part adds 1, 2 and 3 to the three arrays", "statement": "hi adds 1, 2, 3 to every element of the first, second, third array, if the second and the third are not shorter than the first, and changes nothing after the length of the first; with a shorter one memory outside is written.", "quantifier": "for all arrays", "why_tests_cant": "Lengths are unbounded; a write outside of an array may go unnoticed.", "anchors": ["crysgsu/cpp/src/swim.cpp: hi"]}
{"id": "C104", "title": "Names of intermediate files of smoothing", "statement": "Different iterations are stored to different files and an alphabetical listing of the files is in the order of iterations.", "quantifier": "for all numbers of iterations", "why_tests_cant": "Fails first at iteration 1000.", "anchors": ["crysgsu/smoothing.py: Smoothing.name_of_iteration, write_grid_and_print_info"]}
{"id": "C105", "title": "The numbers of print_info", "statement": "For every grid with a face print_info works with any flags; the counts agree with each other: zones contain all faces once, three times the faces is border edges plus two times the other edges, for a zone three times the faces plus the outer edges is two times the edges; the deviation of the distribution is never below zero and zero exactly if all zones have the same number of faces. For a grid without faces the statistics raise ZeroDivisionError. The nodes and edges counted for a zone are exactly those of its faces, each counted once.", "quantifier": "for all grids and decompositions", "why_tests_cant": "Relations between counts over all triangulated surfaces and decompositions.", "anchors": ["crysgsu/gsu/grid.py: Grid.print_info, faces_count_in_zones", "crysgsu/gsu/zone.py: Zone.outer_edges_count"]}
{"id": "C106", "title": "Adjacent edges", "statement": "is_adjacent_with is true exactly for edges with a common node, in either order; two different adjacent edges of a grid have exactly one common node; all edges of a face are adjacent to each other.", "quantifier": "for all grids and pairs of edges", "why_tests_cant": "Depends on the edges of a grid being unique for every pair of nodes.", "anchors": ["crysgsu/gsu/edge.py: Edge.is_adjacent_with"]}
{"id": "C107", "title": "Arrays of a zone", "statement": "coords_np_array, connectivity_list_faces_nodes, variables_np_array and get_variable describe one zone: the numbers in the list of connections are places in the array of coordinates and all variables of the faces are in the array of variables.", "quantifier": "for all grids and zones", "why_tests_cant": "A grid of one zone hides that the numbers are global.", "anchors": ["crysgsu/gsu/zone.py: Zone.coords_np_array, connectivity_list_faces_nodes, variables_np_array, get_variable"]}
{"id": "C108", "title": "A transformed grid can be stored and loaded again", "statement": "A loaded grid after any sequence of decompositions, divide_face, cut_single_edge, cut_edge, cut_edge_with_two_nodes, collapse_face, collapse_edge and mark_all_fixed_nodes calls is stored by store, and loading the stored file into any grid object gives the same zones, faces, corners and data.", "quantifier": "for all files accepted by load and all sequences of allowed calls", "why_tests_cant": "Unbounded histories; store relies on lists of zone members that every call has to keep up to date.", "anchors": ["crysgsu/gsu/grid.py: store, load, cut_edge, collapse_face"]}
{"id": "C109", "title": "Refining a grid by points adds exactly these points", "statement": "refine(grid, list of [triangle, points]) makes every point that lies inside a triangle or on its side a node of the grid, replaces exactly the faces at these points, keeps all other faces, the places of old nodes and the data, and leaves a sound grid; points outside a triangle and at its corners change nothing.", "quantifier": "for all sound grids, lists of triangles with points, and geometric predicates", "why_tests_cant": "Interaction of requests for neighbouring faces depends on the order of an unbounded list.", "anchors": ["crysgsu/refine.py: refine, point_on_edge_of_triangle", "crysgsu/gsu/grid.py: divide_face, cut_edge, cut_single_edge, cut_edge_with_two_nodes"]}
{"id": "C110", "title": "Preparation of found intersections", "statement": "refine_grid joins the points found for one triangle into one list and removes repeated points: every triangle comes once with the points found for it, no two of them close, and a grid without intersections is stored as it is.", "quantifier": "for all lists of found intersections", "why_tests_cant": "Sharing of list objects and sorting show only for certain combinations of intersections.", "anchors": ["crysgsu/refine.py: refine_grid"]}
{"id": "C111", "title": "Explosion of a grid file moves zones as bodies", "statement": "Loading a file without merging nodes, move_from_mean_point(k) and storing gives a file with the same title, zones, variables, values and faces, in which every zone is moved as a whole by k times the vector from the mean of all points to the mean of the zone; the pipeline load, decompose_hierarchical, store, load, move, store always yields both files when the decomposition returns.", "quantifier": "for all well-formed files, factors k, sign functions and numbers of levels", "why_tests_cant": "Needs the relation between all points, faces and zones of two files for grids of any size; the test case only writes a file to be looked at.", "anchors": ["crysgsu/gsu/grid.py: move_from_mean_point, load, store, decompose_hierarchical", "crysgsu/test.py: case_005_explode_bunny"]}
{"id": "C112", "title": "Split, solver and merge return the computed values to the triangles they were computed for", "statement": "If a grid file is split into files for the solver, the solver writes for every file a text with one row per face under the number that the file gives to the face, and merge is run on the initial grid file with these texts, then merge succeeds and the resulting grid has, at the place g of its list of faces, the triangle with number g of the files for the solver (same corners, same order), holding the values computed for it; every face of the initial file is in exactly one place of the files for the solver. Merging into the dat file of the same decomposition is not covered: there faces get the values of other faces.", "quantifier": "for all well-formed grid files without degenerate faces, strategies, fixed zones, orders of rows, variables and values", "why_tests_cant": "It relates two programs with a third one between them, over all grids, all decompositions and all orders of rows.", "anchors": ["crysgsu/split.py: split", "crysgsu/merge.py: merge_one", "crysgsu/gsu/grid.py: store_mpi, load_faces_calc_data, store"]}
{"id": "C113", "title": "Decomposition of a grid file keeps faces and values", "statement": "If a grid file is loaded, decomposed by any of the decompositions and stored, and the decomposition returns, then the stored text is a well-formed grid file with the requested title whose zones are the zones of the decomposed grid, it has no new points, and its faces (corners up to rounding, in order, with their values) are the faces of the initial file, each as many times as there. Values of variables which the first zone does not have are lost, so this holds in full only for files whose zones have the same variables.", "quantifier": "for all well-formed grid files without degenerate faces, all decompositions and their arguments, and all new titles", "why_tests_cant": "It quantifies over all grids and decompositions, and compares multisets of faces of two files; the test case of the repository only stores the files.", "anchors": ["crysgsu/test.py: case_002_decompose", "crysgsu/gsu/grid.py: load, decompose_mono, decompose_random, decompose_linear, decompose_hierarchical, decompose_farhat, store"]}
{"id": "C114", "title": "Storing and loading the calc data of a grid file", "statement": "If a grid file is loaded, its calc data are stored to a text and loaded back from it, and the grid is stored, then the stored file has the same title, the same zones with the same numbers of faces, the same triangles in the same order, its variables are exactly T, Hw and Hi, and the values of each face are those of the same face of the initial file (0 where it has no such variable) increased by the random numbers drawn for that face; all other variables are gone.", "quantifier": "for all well-formed grid files without degenerate faces and all random numbers", "why_tests_cant": "It relates every face of the first file with the same face of the last one through an intermediate text, for all grids and all random draws.", "anchors": ["crysgsu/test.py: case_007_store_load_faces_calc_data", "crysgsu/gsu/grid.py: store_faces_calc_data, load_faces_calc_data, store"]}
{"id": "C115", "title": "Numbers printed before and after one transformation of a loaded grid", "statement": "In the programs case_015 - case_020 of test.py (load a grid, print the numbers of faces, edges and nodes, transform the grid at the first suitable place, print the numbers again) the lists printed first are 0 .. n-1 in order and the lists printed last are 0 .. n-1 in some order, with the right numbers of new faces, edges and nodes; when no face begins with an edge of the needed kind the program ends with IndexError and the grid is unchanged. For the contraction of an edge this holds exactly if none of the deleted objects is at the end of the lists of the grid.", "quantifier": "for all well-formed grid files without degenerate faces, subject to the stated conditions on the place of the transformation", "why_tests_cant": "The programs are run on one grid and the printed lists are looked at by a person; the claim is about all grids.", "anchors": ["crysgsu/test.py: case_015_GloId_in_grid_for_divide_face - case_020_GloId_in_grid_for_cut_edge_with_two_nodes", "crysgsu/gsu/grid.py: divide_face, collapse_face, cut_edge, collapse_edge, cut_single_edge, cut_edge_with_two_nodes"]}
{"id": "C116", "title": "A whole run of the parallel program crys.py", "statement": "crys.py on n ranks, given a grid file with variables T, Hi and Hw on a connected surface with at least n faces: every rank gets to the end, the exchanges change nothing on any rank, and the stored file is the remeshing of the input surface with every height of ice increased as the C part does (+2); the positions in it do not depend on the number of ranks, and the ice grown on a face is the ice computed for this face. Zones of the file are those of the division between ranks, the height is zero, the other variables are those of the input file (T and Hw computed by the C part are not stored), missing recovery factors are added. A rank whose zone has no neighbour stops with ValueError, a missing variable is a KeyError. (The claims about the heights hold exactly if the number of faces is a multiple of the number of ranks or the mixed-up heights are the same.)", "quantifier": "for all well-formed grid files without degenerate faces, all numbers of ranks, all orders of the steps of the exchanges in which no send buffer is filled again before it has been read", "why_tests_cant": "It is about all numbers of ranks and all interleavings of messages; a run on one machine shows one of them.", "anchors": ["crysgsu/crys.py: crys, get_data, exchange, remesh", "crysgsu/cpp/src/swim.cpp: hi", "crysgsu/gsu/zone.py: get_real_face, get_ghost_face"]}
{"id": "C117", "title": "The text of a file for the solver can be read back completely", "statement": "The files which store_mpi writes (after split with any strategy, or after load and any decomposition as in case_009) have different names base_NNNNN_ts.cry, one per zone in their order, and a strict reader that checks every heading, the announced numbers of nodes, edges, cross edges, faces and borders, the range of every local number and that nothing is left over accepts each text and finds exactly the contents of the file of that zone. In all texts together each face of the grid file stands at one place, with its number, its three corners in their order and its data (0 for a missing variable). So the cycle split - solver - merge returns values to the right triangles even though the solver sees only the texts.", "quantifier": "for all well-formed grid files with at least one face, all decompositions that return, all base names, time stamps and suffixes", "why_tests_cant": "The consumer of these texts is a separate program; a test in this repository only shows that some files appear.", "anchors": ["crysgsu/gsu/grid.py: Grid.store_mpi", "crysgsu/gsu/zone.py: get_nodes_coord_slice_str, get_faces_data_slice_str, get_faces_global_ids_slice_str", "crysgsu/split.py: split", "crysgsu/test.py: case_009_store_mpi"]}
{"id": "C118", "title": "split into a directory, solver, merge from the directory: one right grid file per time stamp", "statement": "After split wrote its files, let the solver write into a directory one text per part and time stamp (base_NNNNN_stamp.txt, any order, other files may lie there too, for example the files of split). Then merge, run on the same grid file and this directory, succeeds and writes exactly one file base_r_stamp.dat per time stamp; in the grid loaded from it the face at place g is the triangle which split gave to the solver under the number g, with the values computed for it at that time. The claim is false when a text of an older run with more parts is still in the directory: merge takes it and its values replace the right ones.", "quantifier": "for all well-formed grid files with at least one face, all strategies of split that return, up to 100000 parts, all sets of time stamps, all solver results, all orders of the directory", "why_tests_cant": "The solver is a separate program and the directory is listed in an order fixed by the file system; the property quantifies over both.", "anchors": ["crysgsu/split.py: split", "crysgsu/merge.py: merge", "crysgsu/utils.py: is_filename_correct_crys_txt_file, get_filename_and_timestamp_pair, group_txt_files_by_timestamps", "crysgsu/gsu/grid.py: Grid.store_mpi, load_faces_calc_data, store"]}
{"id": "C119", "title": "Line ends of input files do not matter", "statement": "A grid file, a text of the solver or a file of another program whose lines end with LF, CR LF, CR or a mixture of them gives the same result as the same text with LF: Grid.load builds the same grid or raises the same exception, and split, merge, remesh, Import and the converters of ANSYS and Lazurit write the same files.", "quantifier": "for all texts (well-formed or not), all choices of line ends for each line, all options of the programs", "why_tests_cant": "Tests use files of one system; the choice of line end is per line and the texts are arbitrary.", "anchors": ["crysgsu/gsu/grid.py: Grid.load, load_faces_calc_data", "crysgsu/split.py: split", "crysgsu/merge.py: merge", "crysgsu/remesh.py: remesh", "crysgsu/convert/gsu_converter.py: Grid.Import", "crysgsu/convert/ansys_to_crystal.py", "crysgsu/convert/lazurit_to_crystal.py"]}
{"id": "C120", "title": "The grid depends only on what the file says, not on how it is written", "statement": "Two well-formed grid files with the same title and the same zones in the same order give the same grid (all objects, lists and numbers equal). In particular comment lines may be added before and after zones, numbers may be written with other digits, spaces or tabs, and the line end after the last face may be missing; split, merge and remesh then write the same files. It is false of comments inside a zone (ValueError), of blank lines (Exception) and of a title in the last line without line end (its last letter is lost).", "quantifier": "for all pairs of well-formed grid files with the same contents, both values of is_merge_same_nodes, all states before", "why_tests_cant": "There are infinitely many ways to write the same contents; a test fixes two texts.", "anchors": ["crysgsu/gsu/grid.py: Grid.load", "crysgsu/split.py: split", "crysgsu/merge.py: merge", "crysgsu/remesh.py: remesh"]}
{"id": "C121", "title": "A computation can be continued from the merged file, any number of times", "statement": "After any number of cycles split - solver - merge, each started from a file name_r_stamp.dat merged in the cycle before, with any strategies, numbers of parts and time stamps, the last file is again a well-formed grid file without degenerate faces. Loaded, it has the title of the first grid, the same zones in the same order with the same numbers of faces, and the same triangles at the same places with exactly the same corners. The base name has got one '_r' per merge and the time stamp of the name is the last one. If this file is split and the solver answers for every part, merge succeeds again.", "quantifier": "for all well-formed grid files without degenerate faces, all numbers of cycles, all strategies, answers and time stamps", "why_tests_cant": "An error that appears only after several restarts (drifting points, lost or reordered faces, names not recognised) is not seen by a test of one cycle; the number of cycles is unbounded.", "anchors": ["crysgsu/split.py: split", "crysgsu/merge.py: merge", "crysgsu/gsu/grid.py: Grid.load, Grid.store, Grid.store_mpi, Grid.load_faces_calc_data", "crysgsu/utils.py: get_filename_and_timestamp_pair"]}
{"id": "C122", "title": "Doubles are written and read back without a change", "statement": "A decimal notation in a grid file (digits with or without point, exponent and sign, blanks around) is read as the nearest IEEE double. A double written by '{0:.18e}' has 19 significant digits, differs from the text by at most half a unit of the last digit, and is read back as exactly the same double, for all doubles but nan: subnormal ones, zeros with sign, infinities. Hence a grid with any such coordinates and values survives store and load without a change, and in a computation continued from merged files any number of times the points do not drift.", "quantifier": "for all doubles but nan, all decimal notations, all grids, all numbers of cycles", "why_tests_cant": "There are 2^64 doubles, and the error of a wrong number of digits or a wrong tie shows only for few of them; a test with samples does not settle it.", "anchors": ["crysgsu/gsu/grid.py: Grid.load, Grid.store, Grid.store_mpi", "crysgsu/split.py: split", "crysgsu/merge.py: merge"]}
{"id": "C123", "title": "Points are merged exactly if the nearest multiples of 10^-10 are the same", "statement": "The rounded coordinate of a node is the double nearest to the multiple of 10^-10 nearest to the coordinate. Two finite coordinates count as the same exactly if these multiples are the same, though most of the multiples are no doubles; rounding again changes nothing. Each point of a loaded file is represented by exactly one node, at the first point of the file with the same multiples, so that no coordinate is moved by more than 10^-10. But no distance guarantees merging: neighbouring doubles may be kept apart.", "quantifier": "for all finite doubles and all well-formed grid files with such points", "why_tests_cant": "The boundary cases are ties and rounding errors of single doubles near odd multiples of 5*10^-11, which no sample of coordinates covers.", "anchors": ["crysgsu/gsu/node.py: Node.__init__", "crysgsu/geom/vect.py: Vect.rounded_coords_tuple", "crysgsu/gsu/grid.py: Grid.add_node, Grid.find_node, Grid.load"]}
{"id": "C124", "title": "The converter writes numbers as millionths", "statement": "Export of the converter ('%f') writes a finite double as the nearest number of millionths; the number read back by Grid.load is the double nearest to it, and exported again it gives the same text. A value of less than half a millionth (a small friction or Beta) becomes zero, so values are not kept in general. The file exported from a readable source is a well-formed grid file with these numbers; two nodes of the source with the same nearest millionths in all coordinates, of the same or of different zones, become one node of the loaded grid. If the three corners of a face of the source have the same nearest millionths, the exported file is refused by Grid.load with an exception, although the corners are far enough apart for the loader; so an exported file cannot always be loaded.", "quantifier": "for all finite doubles; for all readable source files with any real numbers", "why_tests_cant": "Which values and nodes are lost depends on the scale of the data; ties and neighbouring doubles are not covered by samples.", "anchors": ["crysgsu/convert/gsu_converter.py: Grid.Export", "crysgsu/convert/ansys_to_crystal.py: data_from_nodes_to_faces", "crysgsu/gsu/grid.py: Grid.load"]}
{"id": "C125", "title": "Degenerate faces are refused or make a face its own neighbour", "statement": "Grid.load refuses with an exception every file with a face all corners of which coincide (after rounding), and every file in which a face with exactly two different corners p and q stands beside any other face with the corners p and q; a file in the right form is otherwise loaded, no other exception is possible. A face with two different corners that is on no other face's edge is accepted: then this face is twice on the edge between its corners, so the edge is not a border edge and the face is its own neighbour across it; there are even edges from a node to itself that join faces which have no edge in common. So 'degenerate faces are refused' is false.", "quantifier": "for all files in the right form, all places of the degenerate face in the file, all positions of its corners", "why_tests_cant": "What happens depends on the order of the faces and on the edges that the corners already have; finitely many files do not show that no other outcome exists.", "anchors": ["crysgsu/gsu/grid.py: Grid.load, Grid.complex_link_face_node_node_edge, Grid.find_edge, Grid.link_edge_face", "crysgsu/gsu/face.py: Face.get_neighbour", "crysgsu/gsu/edge.py: Edge.is_border"]}
{"id": "C126", "title": "Lengths, middles and centers computed with doubles", "statement": "With the numbers of Python (IEEE doubles): the distance of two points does not depend on their order, is never negative and is zero from a point to itself; up to 2^500 it is the root of the sum of the squares of the differences with every operation rounded; the distance of two points that the merging of nodes keeps apart is positive, so every side of a loaded grid has a positive length (for points in general this is false: squares underflow). The middle of two points does not depend on their order and lies in their box, so the node left by collapse_edge does not leave the box of the edge (false for coordinates above 2^1022: the middle is infinite); in a grid of at most 1024 units the middle of two points that differ by more than 2.01e-10 is merged with none of them. Face.get_center differs from the mean of the corners by at most 2^-51 of the greatest coordinate, but depends on the order of the corners and may lie outside the triangle.", "quantifier": "for all finite points, all files in the right form, all grids with merged nodes, all edges and faces", "why_tests_cant": "There are 2^64 doubles per coordinate; rounding, underflow and overflow show at values no test has.", "anchors": ["crysgsu/geom/vect.py: Vect.dist_to, Vect.middle_point, Vect.__truediv__", "crysgsu/gsu/edge.py: Edge.len_edge", "crysgsu/gsu/face.py: Face.get_center, Face.max_edge_from_face", "crysgsu/gsu/grid.py: Grid.collapse_edge, Grid.load"]}
{"id": "C127", "title": "The printed line about the edges", "statement": "The line printed by print_info(is_print_edges_statistics=True) shows the numbers of border, inner and cross edges. Each percentage is computed with doubles as the number nearest to the exact share and is printed with two places: of all numbers with two places it is as near as possible to the exact share (up to 2^38 edges), so the three differ from 100 by one hundredth at most; none is printed as 0.00 and all as 100.00. Not always: they need not add up to 100, and 0.00% does not mean that there are none. Without edges there is ZeroDivisionError.", "quantifier": "for all grids, all lists of edges whose faces are in zones, all counts up to 2^38", "why_tests_cant": "The percentage is rounded twice (to a double, then to hundredths); whether the second rounding can go the wrong way is a question about all pairs of counts.", "anchors": ["crysgsu/gsu/zones_adjacency_matrix.py: ZonesAdjacencyMatrix.edges_statistics, ZonesAdjacencyMatrix.edges_statistics_string", "crysgsu/gsu/grid.py: Grid.print_info"]}
{"id": "C128", "title": "The printed deviation of the distribution of faces", "statement": "print_info(is_print_faces_distribution=True) prints the number of faces of the largest zone and by how many percents it exceeds the mean. The value is computed with four roundings (mean, difference, product, quotient), yet what is printed with two places has no minus sign and is, of all numbers with two places, as near as possible to the exact deviation, whenever faces times zones is at most 2^35; it is 0.00 if all zones have the same number of faces. The converse is false: 0.00% is printed for zones of 10001 and 10000 faces.", "quantifier": "for all consistent grids with at least one face", "why_tests_cant": "The mean is not representable as a double for most numbers of zones; that the cancellation in the difference never shows in the printed digits is a statement about all numbers of faces and zones.", "anchors": ["crysgsu/gsu/grid.py: Grid.print_info"]}
{"id": "C129", "title": "Lines that mean nothing are never passed over", "statement": "Between the zones of a grid file Grid.load understands comments and lines with TITLE=, VARIABLES= or ZONE T=. Any other line, a blank one included, makes the load raise Exception wherever it stands, whatever follows. The grid is then left with the title and exactly the zones written before the line, with their faces, values and corners but with no edge; what it held before is gone. The programs split and remesh stop there and have nothing to write.", "quantifier": "for all files made of well-formed pieces up to the line, all such lines, all continuations, all states of the grid and both modes of merging nodes", "why_tests_cant": "The set of meaningless lines and of continuations is infinite, and what stays of a partly read file depends on everything before the line.", "anchors": ["crysgsu/gsu/grid.py: Grid.load", "crysgsu/split.py: split", "crysgsu/remesh.py: remesh"]}
{"id": "C130", "title": "The printed quality factors of zones", "statement": "print_info(is_print_faces_distribution=True) prints for every zone its name, the number of faces, the number of outer edges and the quality factor QF = sqrt(faces) / outer edges with three places. The square root and the quotient are rounded, yet the printed number has no sign and is, of all numbers with three places, as near as possible to the exact factor, for zones of up to 2^28 faces with an outer edge; the factor of a closed zone is inf, of a zone without faces nan, and nothing is raised. If all zones have faces and outer edges, the line '~ min/max quality factor' repeats the factors of two zones, and no zone shows a smaller or a greater one. It is false if a zone has no faces: the line is then 'nan, nan' or not, depending on the order of zones.", "quantifier": "for all consistent grids and all zones of them", "why_tests_cant": "That two roundings never move the printed digits is a statement about all pairs of counts (the exact factor is irrational as a rule); the order of zones matters only with empty zones.", "anchors": ["crysgsu/gsu/grid.py: Grid.print_info", "crysgsu/gsu/zone.py: Zone.zone_quality_factor, Zone.outer_edges_count"]}
{"id": "C131", "title": "What remesh.py does with files", "statement": "remesh.py -d s -o o, with two different directories, remeshes every file *.dat of s, each as if it were alone, and stores the result in o under the name without '_r_', if no two of these names are equal (as when no name has '_r_'); with -g it stores the result of one grid in the same way; it ends well if it does so for every grid alone. No other file changes: neither the grids nor other files of o. The first grid that cannot be remeshed stops the program, with the results before it kept and the rest not remeshed. Not covered by the promise: of two grids whose names differ only in '_r_' the result of the first is lost silently; if o is s, the second one is replaced before it is read and the first is remeshed twice; with -g and without -o a grid of the working directory is replaced by its result; a file of -g with another extension is passed over without an error.", "quantifier": "for all disks, directories, listings, grids, json files and numbers", "why_tests_cant": "The order of os.listdir, the other files of both directories and the place of the failing grid are arbitrary.", "anchors": ["crysgsu/remesh.py: __main__"]}
{"id": "C132", "title": "The boxes of lists of triangles", "statement": "Box.from_triangles gives the smallest box that holds every point of every triangle of the list, whatever the order and the repetitions of triangles; no triangles give ValueError. If is_potential_intersect_with_box is False for the boxes of two lists, no triangle of one has a point in common with a triangle of the other (so the cold check of triangle clouds loses no intersection); the converse is false.", "quantifier": "for all lists of triangles and all points", "why_tests_cant": "Triangles have infinitely many points and lists any length; minimality speaks of all other boxes.", "anchors": ["crysgsu/geom/box.py: Box.from_triangles, Box.is_potential_intersect_with_box", "crysgsu/geom/triangles_cloud.py: TrianglesCloud.intersection_with_triangles_cloud"]}
{"id": "C133", "title": "Deletion of faces and edges", "statement": "Grid.del_face of a face of a sound grid takes it out of the lists of the grid, of its zone, of its nodes and of its edges; Grid.del_edge does the same with an edge and the lists of the grid, of zones, of its ends and of its faces. The order of all other elements stays, and nothing else changes: points, numbers, names, data, the nodes and the zone that the deleted object itself refers to. A face or an edge that is not in the grid is refused with an exception, so nothing is deleted twice (for an edge: ValueError, and the grid is unchanged). The numbers are not made consecutive again: a grid with faces numbered 0 .. n-1 is not so after a deletion. A node that has lost its faces and edges cannot be deleted by Grid.del_node: IndexError, nothing changed.", "quantifier": "for all sound grids, faces and edges; refusal for all grids", "why_tests_cant": "That no other list of any object is touched, for every face of every grid, is not visible in samples.", "anchors": ["crysgsu/gsu/grid.py: Grid.del_face, Grid.del_edge, Grid.del_node"]}
