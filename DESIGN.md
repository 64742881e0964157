# Formal model of crys-gsu in Rocq/Coq 8.16.1

(Initial plan; the "status" of each property is kept in MANIFEST.json and
section 4 below is updated as the model grows.)

## 1. What is modelled

The Python package `crysgsu` of r-aax/crys-gsu.  The model consists of small
computable Gallina functions that follow the Python functions branch by
branch.  Every definition carries a comment with the file and lines it models
and the simplifications made.

Representation decisions

* **Objects and references.**  Nodes, edges, faces and zones are mutable Python
  objects that refer to each other.  The model has a heap: one total store per
  class (`nat -> record`) and one allocation counter per class.  Python
  references cannot dangle, so a total store is adequate; the invariants state
  that every reachable reference is below its counter.  Fields of the single
  grid object are part of the heap.
* **Exceptions.**  A computation is a function `heap -> result * heap`; the
  result is a value or an exception tag (`ValueError`, `IndexError`, ... and
  `Exception` for explicit `raise Exception`).  The state reached at the moment
  of the exception is kept, as in Python.
* **Loops.**  `for` loops over lists are structural recursion over the list
  taken at loop entry.  `while` loops use explicit fuel with a separate
  `OutOfFuel` result; theorems show that this result does not occur.
* **Equality.**  Faces, edges and zones are compared by identity; nodes by
  their rounded coordinates (`Node.__eq__`), also inside `in`, `remove`.
* **Text.**  Python strings are lists of 8-bit characters.  A text file is such
  a list; reading it line by line keeps the line feed.
* **Floating point.**  Grid topology and file code treat floats as opaque
  values with a rounding function, a `'{0:.18e}'` formatter and a parser
  (class `FloatOps`); the laws needed (parse after format is the identity, the
  formatted text is non-empty and has no blanks) are explicit hypotheses of
  the theorems that use them.  `Double.v` gives an instance with IEEE doubles
  (Flocq's `binary_float 53 1024`, without nan) for which these laws are
  theorems (C122), so the hypotheses hold of Python's floats.  Geometry is modelled over exact arithmetic
  (rationals or reals); rounding errors are out of scope unless a theorem says
  so.
* **Randomness, MPI, KD-tree, numpy/scipy solvers** are oracles (parameters)
  over which theorems quantify.

## 2. Trusted base

* the Coq 8.16.1 kernel (`coqc`, and `coqchk`);
* axioms: what `Print Assumptions` prints under each theorem in the
  `Properties*.v` files.  Everything about grids and files is closed under
  the global context; theorems about real numbers use the axioms of
  `Coq.Reals` (`sig_not_dec`, `sig_forall_dec`, `functional_extensionality_dep`)
  and, where powers or square roots occur, `Coq.Logic.Classical_Prop.classic`
  (C116, whose statements include the remesher, uses it also to decide whether a
  zone has a neighbour);
* for C122 and C123 the definitions of the library Flocq (format of doubles,
  rounding to nearest even); its theorems use the axioms above and no others;
* the fidelity of the model: the comments in the model files give, for each
  definition, the Python lines and the simplifications.

Not modelled: `numpy`/`scipy` numerical kernels, the flow solver, matplotlib or
logging output, time measurement, operating system errors (missing files, disk
full), command line parsing, `json.load`.  The
module `refine.py` imports `gsu.gsu`, which does not exist, so it cannot be
started as it is; its functions are modelled with the class `Grid` (C109, C110).

## 3. Files (`rocq/theories`)

| file | content |
|---|---|
| `Py.v` | Python prelude: strings, lists, exceptions, state monad |
| `Utils.v` | `utils.py` |
| `Heap.v`, `GridModel.v` | objects, `grid.py` linking, BFS, decompositions |
| `GridIO.v` | `load`, `store` |
| `FileSpec.v` | what a .dat file is and says; what it means that a grid holds it |
| `Frames.v`, `LoadParse.v`, `LoadPlace.v`, `LoadEdges.v`, `LoadMain.v`, `LoadFresh.v`, `LoadProps.v` | proofs about `load`: reader, placing nodes and faces, linking edges, whole function, independence of the previous contents |
| `TextLemmas.v`, `StoreSpec.v`, `StoreProofs.v`, `RoundTrip.v` | text, the file written by `store`, reading it back |
| `Driver.v`, `DriverSpec.v`, `PlainProofs.v`, `DriverProofs.v`, `MergeProofs.v`, `StrategyProofs.v` | `load_faces_calc_data`, `merge.py`, `split.py` |
| `Mpi.v` | `store_mpi`, `get_mpi_borders` |
| `Exchange.v`, `Gather.v` | `exchange` and the gathering part of `remesh` in `crys.py` |
| `Samples*.v` | concrete grids used in examples and refutations |
| `Zam.v` | `zones_adjacency_matrix.py` |
| `Atomic.v`, `AtomicSpec.v`, `AtomicActs.v` | atomic transformations of the grid; what a patch of a grid is; sequences of calls |
| `PatchProofs.v`, `PatchRun.v`, `PatchDel.v`, `PatchTmpl.v`, `PatchDone.v` | effect of every primitive step (adding, linking, deleting) on incidence lists, zones, numbers |
| `AtomicRun.v`, `AtomicProofs.v`, `AtomicTwo.v`, `AtomicCut.v`, `AtomicInner.v`, `AtomicFlip.v`, `AtomicMain.v`, `AtomicSeq.v`, `AtomicFinal.v` | proofs for each transformation, for sequences, counterexamples |
| `CollapseSpec.v`, `CollapseRun.v`, `CollapseNode.v`, `CollapseRun2.v`, `CollapseMain.v`, `CollapseTopo.v`, `CollapseCases.v` | contraction of an inner edge: what it is; the calls one by one as changes of lists; consistency of the result; an example |
| `Geom.v`, `GeomSpec.v`, `GeomProofs.v`, `CloudProofs.v`, `GeomMore.v` | `geom/`: vectors, boxes, triangles, clouds, volumes; what points of a triangle, a segment, a box are |
| `Remesh.v`, `RemeshSpec.v` | `remeshing.py`, moving nodes in `smoothing.py`; sums over faces, flat surfaces, histories of steps |
| `RemeshProofs.v`, `SmoothProofs.v`, `StepsProofs.v`, `DirProofs.v`, `GrowthProofs.v`, `FlatProofs.v`, `RemeshMore.v` | loops over fields, heights, number of steps, directions, steps, even ice on a flat surface, sample square |
| `Ansys.v`, `AnsysSpec.v`, `AnsysExportSpec.v`, `AnsysText.v`, `AnsysProofs.v`, `AnsysMore.v`, `AnsysExport.v`, `AnsysCases.v`, `AnsysPipe.v`, `AnsysExamples.v` | lines of `convert/ansys_to_crystal.py`, LoadNodesData and Export of `convert/gsu_converter.py` |
| `DropsText.v`, `DropsTextSpec.v`, `DropsTextProofs.v`, `DropsTextCases.v` | reading of the air grid (`drops.py` 177-226) and the file of trajectories (`drops.py` 264-281, `geom/trajectory.py` 94-116) |
| `Convert.v`, `ConvertSpec.v`, `ConvertProofs.v`, `ConvertMore.v`, `ConvertCases.v` | `convert/*.py`, csv part of `merge.py`, `move_from_mean_point` |
| `Drops.v`, `DropsSpec.v`, `DropsProofs.v`, `DropsMore.v`, `DropsCases.v` | `drops.py`, stall data in `grid.py`; drag law, legs, landing; flights, data after flights, sample flights |
| `Programs.v`, `ProgramsSpec.v`, `ProgramsProofs.v`, `ProgramsMore.v`, `ProgramsDrops.v`, `ProgramsNames.v`, `ProgramsCases.v`, `ProgramsStall.v` | the programs `remesh.py` (one mesh, 77-92) and `drops.py` (231-300) from file to file, on heap grids; sample files |
| `Cross.v`, `CrossSpec.v`, `CrossProofs.v`, `CrossMore.v` | intersections of triangles and of clouds, point in triangle, equality of triangles (`geom/triangle.py`, `geom/triangles_cloud.py`) |
| `Import.v`, `ImportSpec.v`, `ImportProofs.v`, `ImportMore.v`, `ImportCases.v`, `CalcProofs.v` | `Grid.Import` (`convert/gsu_converter.py`), calc data file (`gsu/grid.py`, `gsu/face.py`) |
| `Options.v`, `OptionsSpec.v`, `OptionsProofs.v`, `OptionsCases.v` | json options and command line of split and remesh (`split.py`, `remeshing.py`) |
| `Corners.v`, `CornersSpec.v`, `CornersProofs.v` | planes and angles of triangles (`geom/vect.py`, `geom/triangle.py`) |
| `AnsysMain.v`, `AnsysMainSpec.v`, `AnsysMainText.v`, `AnsysMainProofs.v`, `AnsysMainFinal.v`, `AnsysMainCases.v`, `AnsysMainRun.v` | the program `ansys_to_crystal.py` as a whole |
| `Transfer.v`, `TransferSpec.v`, `TransferProofs.v`, `TransferCases.v` | the programs `interpolate.py` and `lazurit_add_beta_from_ansys.py` as wholes |
| `LazuritMain.v`, `LazuritMainSpec.v`, `LazuritMainProofs.v`, `LazuritMainFinal.v`, `LazuritMainBack.v`, `LazuritMainCases.v` | the program `lazurit_to_crystal.py` as a whole |
| `StableSpec.v`, `StableProofs.v`, `StableFinal.v`, `StableCases.v` | storing, loading and storing again |
| `Laws.v`, `LawsSpec.v`, `LawsProofs.v`, `LawsTables.v`, `LawsNames.v` | `phys/laws.py`, `cpp/src/swim.cpp`, names of files of `smoothing.py` |
| `Info.v`, `InfoSpec.v`, `InfoProofs.v`, `InfoArrays.v`, `InfoCases.v` | counters, `print_info`, adjacency of edges, arrays of zones |
| `AcrossMain.v` | edges between two zones; sequences across zones, repair by a decomposition; storing of transformed grids |
| `Refine.v`, `RefineSpec.v`, `RefineProofs.v`, `RefinePrep.v`, `RefineCases.v` | refine.py: rebuilding of faces by points, preparation of the list of intersections |
| `Explode.v`, `ExplodeSpec.v`, `ExplodeProofs.v`, `ExplodeCase.v`, `ExplodeCases.v` | grid.py:1095-1122 on files, test.py:80-96 |
| `CycleSpec.v`, `CycleProofs.v`, `CycleCases.v` | split.py:16-134, merge.py, grid.py:663-740 together |
| `Redivide.v`, `RedivideSpec.v`, `RedivideProofs.v`, `RedivideCases.v` | test.py:33-76, 105-120 with grid.py load, decompositions, store_faces_calc_data, load_faces_calc_data, store |
| `GloIds.v`, `GloIdsSpec.v`, `GloIdsProofs.v`, `GloIdsCases.v`, `BagProofs.v` | test.py:163-347 |
| `Crys.v`, `CrysSpec.v`, `CrysProofs.v`, `CrysRun.v`, `CrysStore.v`, `CrysFinal.v`, `CrysCases.v` | crys.py:15-29, 179-218, swim.cpp:9-23 |
| `Solver.v`, `SolverSpec.v`, `SolverProofs.v`, `SolverMain.v`, `SolverCases.v` | test.py:126-140 (grid.py:663-740 is in Mpi.v) |
| `Stamps.v`, `StampsSpec.v`, `StampsProofs.v`, `StampsCases.v` | split.py:16-134, merge.py:17-64 on directories |
| `EndsSpec.v`, `EndsProofs.v` | `open(..., 'r')` of all programs, Py.v |
| `ContentsSpec.v`, `ContentsProofs.v`, `ContentsCases.v` | grid.py:471-584 (model in GridIO.v) |
| `RestartSpec.v`, `RestartProofs.v`, `RestartCases.v` | split.py:16-134, merge.py:17-64, utils.py:48-61 (models in Stamps.v, Driver.v, Utils.v) |
| `Double.v`, `DoubleSpec.v`, `DoubleProofs.v`, `DoubleMore.v`, `DoubleCases.v` | doubles of Python: `float(t)`, `'{0:.18e}'.format(x)`, `round(x, 10)`, comparison, as used in grid.py, node.py:30 and vect.py |
| `DoubleExport.v`, `DoubleExportProofs.v`, `DoubleExportMain.v` | gsu_converter.py:411-447 (`'%f'`) |
| `DegenerateProofs.v`, `DegenerateCases.v` | grid.py:293-390, 530-543 (proofs about the model of `GridModel.v`) |
| `DoubleRefusedSpec.v`, `DoubleRefused.v` | specification and proofs about exported files that the loader refuses (`DoubleExport.v`, `GridIO.v`) |
| `DoubleGeomSpec.v`, `DoubleGeom.v`, `DoubleDist.v`, `DoubleGeomCases.v` | specification and proofs about the operations of `Double.v` (geom/vect.py:204-260, 296-338, 454-466, gsu/face.py:124-133) |
| `DoubleStats.v`, `DoubleStatsSpec.v`, `DoubleStatsProofs.v`, `DoubleStatsCases.v` | gsu/zones_adjacency_matrix.py:116-135 with doubles |
| `DoubleDistrib.v`, `DoubleDistribProofs.v` | gsu/grid.py:168-174 with doubles |
| `ForeignSpec.v`, `ForeignProofs.v` | (specification and proofs of C129; the model is GridIO.v) |
| `DoubleQuality.v`, `DoubleQualityProofs.v` | gsu/zone.py:81-88, gsu/grid.py:158-177 with doubles |
| `RemeshDir.v`, `RemeshDirSpec.v`, `RemeshDirProofs.v`, `RemeshDirCases.v`, `PropertiesRemeshDir.v` | remesh.py over files (remesh.py:39-92), C131 |
| `Shapes.v`, `ShapesProofs.v`, `PropertiesShapes.v` | Box.from_triangles (box.py:53-65), C132 |
| `DeleteSpec.v`, `DeleteProofs.v`, `PropertiesDelete.v` | Grid.del_face, Grid.del_edge (grid.py:1179-1222) as API, C133 |
| `DropsFlight.v`, `CloudSort.v` | a whole flight; order and depth of a cloud |
| `*Spec.v` | specifications, independent of the model |
| `*Proofs.v` | proofs |
| `Properties*.v` | only the property theorems, their examples and `Print Assumptions` |

## 4. Properties: what is modelled and how it will be proved

| id | plan |
|---|---|
| C01 | model `store`/`load` on texts; symbolic execution of `load` on the printed text; view equality (`RoundTrip.v`), proved |
| C02 | loop invariant of the linking loops of `load` (`LoadEdges.v`), proved |
| C03 | same loop invariant; rejection, bound and converse proved |
| C04 | invariant "bag = rounded coordinates of the nodes, all different, GloId = position" over insertions (`LoadPlace.v`), proved |
| C05 | inversion of the reader (`LoadParse.v`), proved; the index range part is refuted (entry 0 is accepted) |
| C06 | refuted for the title and the number of border nodes; proved for everything else (`LoadFresh.v`) |
| C07 | invariant of the `loc_ids` table over zones (`StoreProofs.v`), proved |
| C08 | `link_nodes_and_edges_to_zones` computes filters of the grid lists |
| C09 | partition invariant of `Zone.add_face` and of the loops |
| C10-C12 | exact computation of the zone lists of the three decompositions |
| C13, C14 | BFS loop invariant with fuel bound = number of faces |
| C15 | prefix connectivity of the BFS queue |
| C16-C18 | model of `split_zone`; invariant over the levels; C16 and C17 are partial: refuted on a plane grid (`flat6`), the exact condition under which a split returns is proved |
| C19-C21 | counting over the edge list |
| C22, C23 | structured model of the written files (`mpi_file`), proved; the rendering `mpi_text` is modelled |
| C24, C25 | string functions, regular expressions unfolded to list functions |
| C26, C27 | lists |
| C28, C29 | `Driver.v` models `load_faces_calc_data` and `merge.py` (the directory listing is the argument `d`, the csv part is C59); one line updates one face, so a covering set of files acts as a permutation of updates (`DriverProofs.v`, `MergeProofs.v`); read back with the round trip of C01.  C29 is false for negative numbers (refuted) |
| C30, C31 | `Driver.v` models `split.py`: strategy, fixed zones, recovery factor, writing; composition of the load, decomposition and store theorems (`StrategyProofs.v`).  The number of zones is wrong when a fixed name is given twice (refuted) |
| C32, C63 | transition system of ranks, send buffers, messages and receive requests; counting invariant per pair of neighbours over all interleavings; C63 (several exchanges) refuted by a schedule, proved when the buffer is not refilled early |
| C33 | exact positions of the written values; refuted by a witness with unequal zones |
| C34-C39 | each operation takes a consistent grid to a consistent grid that differs by a described patch (`patched`); C36, C37, C39 with side conditions, whose violation is refuted with witnesses; without the condition on zones the result is `sound` and described by `patched_to` and `members_to` (`AcrossMain.v`); C38 with the conditions `contractible` of `CollapseSpec.v` (result described by `contracted`; numbers by an equivalence), and two refutations |
| C40 | loop over edges; exact marks, idempotence; the counter is refuted for an object loaded twice |
| C41 | induction over the tree and the fuel, proved (the list of the caller is sorted in place: `C41_caller_order`; depth: `C41_depth`, `CloudSort.v`) |
| C42 | induction over the tree; `_partial` for segments that are not (almost) parallel to any triangle; refuted by two coplanar configurations (lost, and falsely reported) |
| C43 | Cramer's rule over the reals; `_partial` for a determinant of at least 1e-10, refuted for smaller ones |
| C44 | exact over the reals, proved |
| C45 | irreflexive, equality reflexive and symmetric; asymmetry and transitivity refuted; for coordinates that are equal or differ by 1e-10 it is the lexicographic order (`_partial`) |
| C46 | exact over the reals (`ring`, `lra`), proved |
| C47 | one iteration as a flow over inner edges from the higher to the lower face; sums over faces (`SmoothProofs.v`), proved |
| C48 | sorted list of local numbers, counting of faces above a number (`StepsProofs.v`), proved |
| C49 | effect of one step on the rest of ice, histories of steps (`GrowthProofs.v`); equal shares without redistribution refuted on a flat square |
| C50, C61 | exact real arithmetic (`nra`, `lra`, `field`), proved |
| C64 | "the least number of steps" refuted (square without ice, ten steps); small grids always take `nsteps_max` |
| C65 | all phases of a step executed symbolically on a flat surface, induction over steps (`FlatProofs.v`), proved |
| C66 | weighted sums with positive weights do not get longer than one (Cauchy inequality), proved |
| C67 | null space smoothing and pseudo 2d mode raise on every grid; refuted |
| C68 | invariant over steps, proved |
| C51 | fuelled loop, number of steps bounds the fuel (`fly_loop_ok`); `max_steps` bounds steps, not points (refuted) |
| C52 | invariant of the loop over faces: the last droplet wins; the sum is refuted, and every case of two or more droplets loses mass |
| C53 | `Convert.v`: argmin over lists, KD-tree as oracle with its specification |
| C54 | `Convert.v` models the zone written for a pair of files from the tokens read; node numbering is injective, so a directed edge determines its cell and half (`ConvertMore.v`).  The order of data is wrong for blocks with several rows and columns (refuted) |
| C55, C72, C73 | quads as 4-tuples of node numbers, all coincidence patterns; rows of numbers over `R`; zones as lists of node numbers (`ConvertProofs.v`, `ConvertMore.v`) |
| C56, C75, C76, C78 | `Ansys.v`: a file is the list of its lines; every loop is a function of the lines left and of the two counters.  Files in specifications are sequences of heads and zones (`AnsysSpec.v`), headers of zones are described by what they name and declare; one lemma per loop by induction on zones and rows (`AnsysText.v`, `AnsysProofs.v`, `AnsysMore.v`, `AnsysPipe.v`).  C75, C76, C78 are refuted in part by concrete files (`AnsysCases.v`) |
| C77 | LoadNodesData on the text of a file, then Export; the text is shown to have the form `file_form` of C02–C05, so that theorems about `load` apply (`AnsysExport.v`, `AnsysPipe.v`) |
| C79 | `DropsText.v`: the loop over lines with the number of lines as fuel; `air_form` describes files, induction on it; one concrete file for the refutation |
| C80 | the written lines have the form `file_form` (as for C77); every first face with equal corners 1, 3 or 2, 3 makes the third link of `link_face_edges` meet a full edge, hence `load` raises; combined with C71 for the runs of drops |
| C81 | `load` gives a grid that meets the conditions of the round trip theorem C01 (`ProgramsProofs.v`), proved |
| C82 | heap grid seen as a grid over `R` through parameters `real`, `near` (any reading and rounding of numbers), remeshing of C47–C68, store, load; flat case by C65; a point without faces leaves a node without normal (`lone_point`) |
| C83 | same bridge for `drops`; C52, C71 for data of faces, C80 for the file of trajectories |
| C84 | `rfind`, `replace` on lists of characters, proved for names without `_r_`; refuted otherwise |
| C85, C86 | sides against triangle by Cramer's rule (C43); a common segment of two triangles ends on sides (`crossing_exists`); the search through two trees of boxes by induction on both (`clouds_meet`).  `list.sort` is a parameter that keeps the elements.  C85 `_partial` for general position, refuted for small triangles and for triangles of one plane |
| C87 | areas of the three parts are weights times the area; numpy rounding to ten digits over `R`; `_partial`, two refutations |
| C88 | nine comparisons; `_partial` for coordinates that are equal or 3e-10 apart, symmetry refuted |
| C89 | loop over lines with fuel, excluded by `C89_ends`; blocks of the stored file read one after another (`import_blocks`); `_partial` for eight variables and quiet names, three refutations |
| C90 | lines of the file joined with C20; random numbers and their addition are parameters |
| C91 | json values as a tree, `json.load` not modelled; the program is `split` with the chosen values (`program_is_split`), composed with C30; three refutations |
| C92 | attributes as a dictionary, eighteen reads one after another; the values used are compared with the members of the json object |
| C93 | determinant zero solved for the two weights (identity of cross products); `_partial` for corners not on one line, refuted otherwise |
| C94 | `acos` of the standard library; angles described by `cos` only; sum of angles from the addition formulas |
| C95 | passes of `Ansys.v` composed text to text (`exported_ok`), then load and store (`zones_again`, also `C81_same_zones`); the wing example is run to its end |
| C96 | two heaps, one for each grid; loops over faces (`interpolate_loop`, `add_beta_loop`), then `moved_again` of C82 with the positions unchanged |
| C97 | refuted by a concrete pair of files; for all sources without the variable proved from C96 |
| C98 | `lazurit_to_crystal`: sorted listing, two files per block, text of the stored zone, then load with merging and store; forwards for files holding a block (`block_files`), backwards: storing means that all files hold a block |
| C99 | refuted by a directory of two blocks; what equal names mean and the name None proved for all names of files |
| C100 | refuted by a file with a spare node; for files without spare nodes and for second stored files proved over all grids (order of nodes by the first place where they occur) |
| C101 | `linear_law` over R as a search for the piece; `func_law` with `curve_fit` as a parameter; statements by neighbours in the table (`next_to`) |
| C102 | the six tables as written; bounds by C101; two refutations by value |
| C103 | `hi` as a loop with checked indices |
| C104 | `name_of_iteration` with the negative slice; alphabetical order `listed_before` |
| C105 | counts by pairs (face, edge) counted in two ways; `distribution` with exact fractions |
| C106 | node lists of edges; uniqueness of edges from `topo_ok` |
| C107 | rows as lists; refuted by the sample of two zones and by a face with MImp2 |
| C108 | lists of zone members are kept by calls within one zone (`carried`, `acts_full`), then C01; refuted by computation on the grid of six faces: `loc_ids` of a corner that the zone does not list is -1 or left over from another zone |
| C109 | geometry is a parameter (`geometry`), requests are described by `asks` (RefineSpec.v); every step is one of the operations of C33, C35, C36, C39 with its patch (`patched_to`), objects of a patch are new (`pa_fresh`), so requests for other faces stay valid; refuted by computation on the grid of six faces |
| C110 | list objects are kept in a store; invariants of the two loops (`merge_frame`, `merge_shape`, `thin_ok`); refuted by computation |
| C111 | nodes loaded without merging are grouped by zones (`zone_nodes`), so the zones are apart and C62 gives the new positions; the stored file is described by `store_form`; pipeline: the decomposed grid is sound (C13, C16), its stored zones have no points outside faces (`stored_used`); refuted by a file with a zone without faces |
| C112 | C07/C23 give the faces, numbers and corners of the files for the solver (`mpi_cover_main`), the tables of the solver are arranged by number (`rows_of`) into the rows of the merge theorem (`merge_one_main`), and the corners agree because loaded points with equal rounding are equal (`firsts`); refuted for the decomposed dat file with the fixed zone B |
| C113 | the stored text describes the zones of the decomposed grid (`store_form`), a decomposition permutes faces between zones and leaves corners and data (`decomposed`), and the listed faces of the loaded heap are those of the file (`loaded_listed`, `stored_listed`); refuted for a file whose second zone has an additional variable |
| C114 | the written calc table has one row per face in order of numbers, so the load replaces the dictionary of each face by its own row (C110 lemmas); zones keep order, so the entries of the two files correspond one by one (`redrawn`) |
| C115 | the search finds the first face of the kind (`search_run`, `search_none`), then C34 - C39 and the numbers of the loaded grid; for the contraction the condition of C38 on the greatest numbers is turned into a condition on places (`greatest_iff`), with the bag without repetitions after a load (`load_bag`); refuted by a file with the deleted node at the end |
| C116 | `prepare` on every rank by C20 - C29 (division, adjacency matrix, borders); the exchanges by C32 plus an invariant that no variable is added (`keyed_reached`), so that they change nothing (`exchange_idle`); the collection by C33, with the place of every element (`collected_places`); remeshing and storing as in C82; existence of runs by the well-founded order of C32 (`exchange_ends`); refuted by three faces on two ranks |
| C117 | the text as a list of lines (`text_concat`, `lines_text`); every line is understood by the reader of its place (`read_text`); the local numbers are in range by C27; names by the padding of the number (`name_ok`, `name_inj`); `stored_every` finds each face with corners and data; the cycle from C112 |
| C118 | `directories`: names of the solver are recognised exactly (`name_recognised`, `digits_inj`), grouping by stamp from C04 gives per stamp a permutation of the parts (`opened_perm`, `covering_perm`), then `cycle_core` (CycleProofs.v) for each stamp; refutation by a computed run |
| C119 | `ends_universal`: translation of line ends gives back the text with LF; every program looks at a text only through its lines, so its runs are equal (`bind_ext`), and a directory only through names and opened texts (`same_open`) |
| C120 | `contents_load`: the loop of load on a well-formed file is the building of its events (`load_loop_build`); rewriting of pieces keeps the form (`rewritten_form`, `block_same`); `file_chop` for the last line end; refutations by computed runs |
| C121 | `restart` by induction on the number of cycles; one cycle by `directories_grid` (the strong form of C118) and `merged_text`: the loaded merged text satisfies `grid_ok`, hence its faces have three different rounded corners; positions by `same_triangles` (points of a file differ after rounding) |
| C122 | `read_decimal` and `decimal_nearest` (reading), `sci_ok` and `written` (19 digits), `near_round` (a text within a relative distance of 2^-56 is rounded to the number), `double_faithful`, `double_order`; then the theorems C01 and C121 for `DoubleOps` |
| C123 | `units_ok`, `round10_near` (the double nearest to the multiple is not further from it than the coordinate), `round_iff` (equal results of different multiples would be two ties of odd distance), `merging` from C04 |
| C124 | `write_fixed_at`, `fixed_decimal` (the text is a decimal notation with six places), `round_at_near` for six places, `export_double`; the hypotheses on '%f' of C77 hold of `fixed_real` (`real_word`, `real_read`), hence `joined` from C77 and C04 and `export_refused` from C77 and C125 |
| C125 | `cinv`: how often every face is linked between every two nodes (also a node with itself) is a lower bound for how often it is on the edge that `find_edge` gives, kept by every step of the linking (`cinv_step`); an edge has at most two entries, hence `edges_flat`, `edges_point` |
| C126 | monotony of rounding (`half_ok`, `square_big`, `plus_big`, `root_pos`), the error of one operation (`rn_error`) for `half_apart` and `third_ok`; different ten-billionths differ by 2^-100 at least (`units_far`), so that no square underflows |
| C127 | `int_double` (counts are exact), one rounding of the quotient (`percentage_main`), `write_hundredths_at` (the text is the nearest number of hundredths of the double); a share that is no tie is 1/(2n) away from a tie, more than the error of the double (`share_main`); counts from C20 |
| C128 | the error of the four operations over real numbers (`deviation_error`: 815 * 2^-53 * zones), smaller than the distance 1/(2 faces) of a share from a tie (`deviation_main`); signs of the operations for the missing minus; counts from C105 |
| C129 | induction over the pieces: the loop builds the zones before the line and raises (`loop_stops`); what is built from C22's invariant (`foreign_main`) |
| C130 | error of root and quotient (`factor_error`: 3 * 2^-53 of the factor), an odd number of half thousandths is equal to the factor or farther from it (`factor_apart`: 4000000 faces - (t edges)^2 is an integer); min and max over finite doubles (`fmin_ok`, `fmax_ok`), rounding is monotone |
| C131 | `remesh_main` of RemeshDir.v: the disk maps paths (parts without empty ones and '.') to texts, `mesh_job` is the program of one grid from an empty heap, what a failed Grid.store leaves in its file is a parameter | induction over the list of grids with untouched files; paths of results by `parts_slash` and `replace_ends` |
| C132 | `box_from_triangles` of Shapes.v: the box of the points of all triangles | the box of points is the smallest one (C44) and triangles are convex; the witness of the refuted converse by linear arithmetic |
| C133 | `del_face`, `del_edge` of Atomic.v | the account of changes of PatchDel.v with one deletion, read field by field; refusal by steps that hold the list of the grid |
| C74 | sorted is insertion sort by code points; a sorted list with given elements is unique |
| C57 | loop over pairs, proved |
| C58 | dictionaries without repeated keys, proved |
| C59 | tables as lists of rows, numpy addition with broadcasting; different heights in `CsvMore.v`; `genfromtxt`/`savetxt` not modelled |
| C62 | points as a function from nodes, zones as lists of nodes; induction over zones |
| C69 | exact real arithmetic; the explicit step is unstable for small droplets (refuted at the default time step) |
| C70 | cases of the drag law; division by zero for a droplet that moves with the air (refuted) |
| C71 | invariant of the loop over faces; `C71_flight` (`DropsFlight.v`) describes one flight from face to face, proved |
| C60 | induction over lists of calls, each allowed in the state it is made in (`AtomicSeq.v`), proved; with collapse_edge under the conditions of C38 (`can_collapse`); across zones for `sound` grids (everything but the lists of members of zones), and every decomposition makes a sound grid consistent (`AcrossMain.v`) |
