{
 "C24": {
  "note": "Recovered exactly for zone numbers below 100000 (iff theorem); larger numbers and superscript digits refuted."
 },
 "C25": {
  "note": "Proved for names not ending in a line feed; the digits claim is refuted for names that do."
 },
 "C08": {
  "note": "Proved for load, for every decomposition and for linking of any face assignment."
 },
 "C16": {
  "note": "Fixed zones, names and the upper bound proved whenever it returns; returning proved when the last sign function separates the faces; the unconditional claim is refuted on a plane grid; exact condition for one split proved (iff)."
 },
 "C17": {
  "note": "Proved when the split is not degenerate; the degenerate case leaves the faces in the right child (proved and refutes the full claim)."
 },
 "C32": {
  "note": "One exchange, all interleavings: no exception, no deadlock, termination, owner's values delivered, nothing else changed. Ranks are modelled by a transition system; MPI point-to-point order is assumed."
 },
 "C33": {
  "note": "Exact behaviour proved; right when the zones before zone i have i times its size (e.g. equal sizes); false in general (refuted)."
 },
 "C63": {
  "note": "Refuted: the send buffer is filled again while the previous Isend may still read it; proved for all runs where it is not."
 },
 "C02": {
  "note": "Proved for every accepted file without degenerate faces (with merging; without merging when the nodes inside each zone differ after rounding), plus the contents of the loaded grid."
 },
 "C03": {
  "note": "Rejection, at most two faces per edge, and the converse (every other well-formed non-degenerate file is accepted)."
 },
 "C04": {
  "note": "Exact list of nodes with and without merging, representative of every point, identifiers."
 },
 "C05": {
  "note": "Accepted files are well-formed and load terminates; the claim that connectivity entries must be between 1 and NODES is refuted (0 and negative entries are accepted)."
 },
 "C06": {
  "note": "Same outcome and same state as loading into a new object, but for the name and the number of border nodes; refuted in general (both survive)."
 },
 "C01": {
  "note": "Proved for every consistent grid with merged nodes; hypotheses: reading a formatted number gives it back (faithful_numbers), names and variables free of the special characters, at least one face."
 },
 "C07": {
  "note": "The exact lines of the written file; same hypotheses as C01 without merging."
 },
 "C28": {
  "note": "Whole merge tool: names and contents of all output files, for txt files with a common header covering every face number once; order of files irrelevant; a witness shows why the common header is needed.",
  "status": "proved"
 },
 "C29": {
  "note": "Proved for numbers in range; numbers counted from the end are accepted and change an unlisted face (refuted)."
 },
 "C30": {
  "note": "n<k>: kept zones, number of added zones, exactly k zones for different names (refuted for a name given twice); h<n>: whenever it returns; exceptions; contents of the written file."
 },
 "C31": {
  "note": "For every run of split that returns; the written file contains the variable."
 },
 "C34": {
  "note": "Proved in full: new node, edges, faces with ends, corners, data, zone; counts; everything else unchanged; consistency (incidence, zones, lists of zones, numbering, merged nodes)."
 },
 "C35": {
  "note": "Proved in full; other edges: False and the same state."
 },
 "C36": {
  "note": "Exact description for every inner edge of grids without two faces on the same corners: for an edge within one zone the grid stays consistent; for an edge between two zones all new objects go to the zone of the first face, only the lists of zone members may become wrong (refuted: they do); refuted for double faces (two edges join the same nodes)."
 },
 "C37": {
  "note": "The chosen edge is a longest one; flip proved for a free diagonal, within one zone and across zones (new faces in the zone of the given face); a border longest edge changes nothing; refuted when the diagonal exists already."
 },
 "C38": {
  "note": "Other edges: nothing changes. Inner edges whose ends can be made one node (link condition, one zone, a third face at the second end): exact description of the result, incidence, zones and lists consistent, and the numbers are 0..n-1 exactly if the last remaining members have the greatest numbers. Refuted without the conditions: a face keeps a number >= the number of faces, and an IndexError on a consistent grid."
 },
 "C39": {
  "note": "Border edges proved in full; inner edges of grids without double faces described exactly, consistent within one zone; refuted for edges between two zones."
 },
 "C40": {
  "note": "Exact marks and growth of the counter for every grid, idempotence; the counter equals the number of marked nodes for a new grid, refuted for a grid object loaded twice."
 },
 "C60": {
  "note": "All sequences of five decompositions, divide_face, cut_single_edge, cut_edge, cut_edge_with_two_nodes, collapse_face, collapse_edge (under the conditions of C38), mark_all_fixed_nodes that are allowed step by step (AtomicActs.v); the same for edges between zones with everything but lists of zone members, which any decomposition repairs."
 },
 "C41": {
  "note": "Every non-empty list: termination, leaves of one triangle, permutation, boxes; the empty list raises. The list of the caller is left in the order of the longest side, and the depth is logarithmic."
 },
 "C42": {
  "note": "Proved when no triangle is almost parallel to the segment, and pruning loses nothing the triangle test finds; refuted for coplanar segments (touching corner lost; triangle just ahead of the end reported)."
 },
 "C43": {
  "note": "Proved for determinant >= 1e-10 in absolute value; refuted for smaller non-zero determinants."
 },
 "C44": {
  "note": "Box of points is least; point, box and segment tests."
 },
 "C45": {
  "note": "Irreflexivity, reflexivity and symmetry of equality; asymmetry, transitivity refuted; lexicographic order for coordinates equal or 1e-10 apart."
 },
 "C46": {
  "note": "Exact real arithmetic."
 },
 "C47": {
  "note": "All iterations: total of chunks kept, nothing else touched; one iteration is a flow downhill over inner edges; equal heights: nothing changes; no negative ice for beta <= 1/3."
 },
 "C48": {
  "note": "Bounds, refusal, the height/side condition for all but the allowed part, and existence of the result."
 },
 "C49": {
  "note": "rest_ice >= 0 at every step and at the end with redistribution; without redistribution the chunk is target/(steps to go), so equal shares are refuted (one and a half of the target grows in two steps)."
 },
 "C50": {
  "note": "Root, sign, use of the formula, meaning of the coefficients, means at nodes."
 },
 "C57": {
  "note": "Exact positions of all nodes and the refusal."
 },
 "C61": {
  "note": "In every half-space (so in every box) that contains the vectors; equal vectors."
 },
 "C64": {
  "note": "False: on a square without ice ten steps are made though one is enough; proved that grids in which no face may be ignored always take nsteps_max."
 },
 "C65": {
  "note": "Whole remesh on every flat surface: exact positions, volumes and cleared heights, with and without redistribution."
 },
 "C66": {
  "note": "Directions not longer than one, node moves by direction times height."
 },
 "C67": {
  "note": "False: every run with nss_steps > 0 or pseudo_2d_oz raises."
 },
 "C68": {
  "note": "Invariant over all steps of a run."
 },
 "C51": {
  "note": "All claims proved with at most max_steps steps; \"at most max_steps points\" is false. Legs along the plane of a triangle are excepted (C42)."
 },
 "C52": {
  "note": "True if at most one droplet lands on the face; false otherwise: only the last one is counted."
 },
 "C58": {
  "note": "Also: KeyError if some face lacks one of the five fields."
 },
 "C69": {
  "note": "Relative speed does not grow while rate * dt <= 2; false for small droplets at the default time step."
 },
 "C70": {
  "note": "False: ZeroDivisionError for a droplet that moves with the air; otherwise no exception for a positive diameter."
 },
 "C71": {
  "note": "Invariant of the loop over faces. Every flight starts above its face and ends on the face its trajectory crosses."
 },
 "C53": {
  "note": "scipy's KDTree query is an oracle assumed to return a nearest point."
 },
 "C54": {
  "note": "Mesh part proved for all blocks; data part proved for blocks with one row or column of cells and refuted for 3x3 nodes (links go row-first, data column-first); the order really written is proved for all blocks."
 },
 "C59": {
  "note": "Tables of one shape; numpy addition modelled with broadcasting; parsing and printing of csv not modelled. Tables of different heights are refused (C59_heights) unless the shorter one has one row (C59_one_row_refuted)."
 },
 "C72": {
  "note": "Exact arithmetic; C72_file is the whole function on the text of a file, reading and writing of numbers are parameters."
 },
 "C56": {
  "note": "Whole files as lists of lines; zone headers of the form T=\"name\" ... N=n ... E=e; a file with one line of variables for filter_variables."
 },
 "C55": {
  "note": "Quads by all coincidence patterns; C55_file is the whole LoadNodesData on the text of a file."
 },
 "C75": {
  "note": "Proved for names that follow the comma at once; refuted for blanks after commas (the form filter_variables itself writes) and for longer names that contain a requested one."
 },
 "C76": {
  "note": "Proved for rows with the same number in files of the same shape; refuted for another order of nodes and for another order of variables."
 },
 "C77": {
  "note": "Reading (float) and writing (%f) of numbers are parameters; titles without = are assumed."
 },
 "C78": {
  "note": "Proved for zones followed by another header; refuted for the last zone of a file."
 },
 "C79": {
  "note": "All samples of complete files are read, short rows are reported; refuted: links missing before another zone make the samples of that zone disappear silently."
 },
 "C80": {
  "note": "The file written has the form of a grid file with the zones described; refuted: Grid.load rejects every such file that has a leg (degenerate faces)."
 },
 "C81": {
  "note": "All accepted files with faces and without degenerate faces."
 },
 "C82": {
  "note": "All files for which the remesher ends and the new positions differ after rounding; unconditional for flat surfaces with even ice; refuted: a point on no face makes the program fail."
 },
 "C83": {
  "note": "All runs in which the flights end (C51, C71); refuted: MImp2 is lost when no droplet landed on the first face."
 },
 "C84": {
  "note": "Names without '_r_' of their own; refuted for names with it, and two inputs of one directory may get the same name."
 },
 "C85": {
  "note": "Proved for triangles without sides almost parallel to the plane of the other one (determinant of at least 1e-10); order independence without conditions. Refuted for small triangles (common points are lost) and for triangles of one plane (reported without common points)."
 },
 "C86": {
  "note": "All non-empty lists; what is reported for a pair is what C85 describes."
 },
 "C87": {
  "note": "Proved for points of the plane and triangles of area at least 0.15; refuted for a triangle of half a square millimetre and for a point above the plane."
 },
 "C88": {
  "note": "Proved for different corners with coordinates that are equal or differ by 3e-10; symmetry refuted for a triangle with two equal corners."
 },
 "C89": {
  "note": "Proved for grids with the eight variables Import expects and names of zones without words of headers. Refuted for one more variable, for a name that contains a word of headers (the zone is lost) and for files of Export of the same class, which are always rejected if there is a face."
 },
 "C90": {
  "note": "All grids with distinct faces numbered in order and faithful numbers; random numbers are parameters. Other variables of faces are lost, as proved."
 },
 "C91": {
  "note": "The options are proved for all json values of the expected shape; refuted: an element without zone releases all zones without an error, two elements in one zone give fewer domains than asked, strategy z of the help is refused. json.load is not modelled. A json file whose elements are not a list, or whose zone is not a string, makes the program fail (C91_elements_no_list, C91_zone_no_name)."
 },
 "C92": {
  "note": "All json objects; a json file that is not an object raises. For the remeshing itself the numbers must be numbers."
 },
 "C93": {
  "note": "Proved for triangles with corners not on one line; refuted for others (always true, depends on the order). Real numbers."
 },
 "C94": {
  "note": "All vectors and triangles over real numbers (arccos of a rounded cosine above one is not modelled); is_good refuted: it always raises NameError."
 },
 "C95": {
  "note": "All triples of well formed files; text to text over real numbers with rounding functions for str() and '%f'. Faces with two corners at one position (after rounding) are excluded."
 },
 "C96": {
  "note": "All pairs of files; KDTree.query is a parameter that finds a nearest point; distances over real numbers, the copied values are exact."
 },
 "C97": {
  "note": "False: the values of the target are replaced by zeros without an error; proved for all sources without the variable (C97_missing, C97_missing_beta)."
 },
 "C98": {
  "note": "All directories with pairs of wall files; str(-float(.)) is a parameter that turns a text of a number into a text of its opposite."
 },
 "C99": {
  "note": "False: wing_B-1 and tail_B-1 both become B-1 and files without a letter B all become None; proved instead: equal names mean equal endings from the last B on."
 },
 "C100": {
  "note": "False: a node listed in a zone without being a corner there moves; proved for files where every node is a corner, and for every grid from the second stored file on."
 },
 "C101": {
  "note": "make_interp_spline is modelled by its documentation, curve_fit is a parameter with the hypothesis that it minimises the sum of squares."
 },
 "C102": {
  "note": "False: viscosity at 200 degrees is below zero, the vaporization table is in other units than the sublimation table; bounds inside of the tables proved. The laws are steady in the temperature except that of air (C102_steady, C102_steady_refuted)."
 },
 "C103": {
  "note": "The three arrays are separate pieces of memory; undefined behaviour of C is an exception."
 },
 "C104": {
  "note": "Names differ for all iterations; the order is false (999, 1000) and proved up to 999."
 },
 "C105": {
  "note": "Percentages are exact fractions; the formats of printed numbers and the quality factor (a division of numpy numbers, which raises nothing) are left out."
 },
 "C106": {
  "note": "All pairs of edges."
 },
 "C107": {
  "note": "False for two zones (numbers are global) and for MImp2, Vd2 and the recovery factor, which are always zero; proved: rows and columns for every zone, places for one zone."
 },
 "C108": {
  "note": "Proved for sequences of calls on edges within one zone, and for all edges if a decomposition is the last call; refuted for edges between two zones: the file cannot be loaded, or it is loaded as another grid without an error."
 },
 "C109": {
  "note": "Exact description of all requests (one point inside, one or two points on a side) that are not made for a face divided before; refuted for a point of a side that is reported for both faces (IndexError), for a point inside a face beside a divided side (ValueError), for points on two sides (they are ignored). The module cannot be imported as it is (gsu.gsu does not exist); modelled with Grid."
 },
 "C110": {
  "note": "Every triangle comes once, with found points only, and no found point is lost up to steps between close points; refuted: points of one triangle get into the list of another one (shared list objects), close points may both stay, IndexError without intersections."
 },
 "C111": {
  "note": "File-to-file description for all files whose zones have faces, none degenerate and without coinciding points in a zone; the pipeline of the test case without further conditions on the decomposed file; refuted for a zone without faces (division by zero)."
 },
 "C112": {
  "note": "The whole cycle is proved for every strategy and every order of rows, with coverage of all faces; the variant of merging into the decomposed dat file is refuted by a witness."
 },
 "C113": {
  "note": "Proved for all decompositions with respect to the variables of the first zone, and in full for files whose zones have the same variables; the loss of other variables is shown by a witness."
 },
 "C114": {
  "note": "Proved for every file and every sequence of random numbers."
 },
 "C115": {
  "note": "Proved for all cases but the contraction of an edge, where the exact condition is proved and a witness shows the failure."
 },
 "C116": {
  "note": "Proved; the heights put together by the root are described exactly (C116_heights) and the claim that they are those of the faces is proved for numbers of faces that are multiples of the number of ranks (or equal heights) and refuted otherwise."
 },
 "C117": {
  "note": "Proved. The reader is part of the specification (SolverSpec.v); numbers are assumed to be read back as they were written (faithful_numbers), as in C01."
 },
 "C118": {
  "note": "The main statement is proved (C118_directories) and that files of split are not mistaken for texts of the solver (C118_cry_ignored); C118_leftover_refuted: a text left by an older run with more parts replaces right values."
 },
 "C119": {
  "note": "Proved. The translation of line ends by open(..., 'r') is part of the model (universal_nl in Py.v)."
 },
 "C120": {
  "note": "The main statement is proved for all texts (C120_contents, C120_rewritten, C120_last_line_end and the programs); the three refutations show kinds of rewriting that load does not allow."
 },
 "C121": {
  "note": "Proved in full of the model, for numbers which are written exactly (faithful_numbers, as in C05)."
 },
 "C122": {
  "note": "Proved in full. Doubles, their rounding and arithmetic are those of the library Flocq (binary_float 53 1024); nan is left out (a nan is not equal to itself)."
 },
 "C123": {
  "note": "Proved in full; that near points are always merged is refuted by neighbouring doubles on the two sides of 5*10^-11."
 },
 "C124": {
  "note": "Proved; that values survive the export is refuted by 4e-7, and C124_small says for which values it fails. That every exported file can be loaded is refuted by a face of four ten-millionths (C124_loadable_refuted); C124_refused says when it fails."
 },
 "C125": {
  "note": "Proved; that all degenerate faces are refused is refuted by a file with two such faces (C125_refused_refuted)."
 },
 "C126": {
  "note": "Proved; refuted are: different points have a positive distance (C126_positive_refuted), the middle of finite points is finite (C126_middle_refuted), the center does not depend on the order of corners (C126_center_order_refuted) and lies in the triangle (C126_center_inside_refuted)."
 },
 "C127": {
  "note": "Proved; refuted are that 0.00% means none (C127_ends_refuted) and that the printed percentages add up to 100 (C127_sum_refuted)."
 },
 "C128": {
  "note": "Proved; refuted is that 0.00% means equal zones (C128_even_refuted)."
 },
 "C129": {
  "note": "Proved."
 },
 "C130": {
  "note": "Proved; refuted is that zones without faces do not matter (C130_order_refuted)."
 },
 "C131": {
  "note": "The program over files, remesh.py:39-92, with a disk as a map from paths to texts. Results, other files, success and the state after an exception for all listings; the collisions of names, the results stored among the grids and the grid passed over are theorems of their own. -v at most once; links and '..' in paths are not modelled."
 },
 "C132": {
  "note": "Over real numbers. Smallest box, independence of order, and that boxes apart mean triangles apart are proved for all lists; the converse is refuted by two triangles on both sides of a diagonal."
 },
 "C133": {
  "note": "Exact state after a deletion for all sound grids (the condition kept by all transformations of the grid), refusal for all grids. The claim that numbers stay consecutive is refuted with a witness."
 }
}