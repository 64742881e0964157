(** Properties of converters, of the total csv report and of the explosion of zones:
    C53, C54, C55, C59, C62, C72, C73, C74.

    Model: Convert.v (and Drops.v, Geom.v).  Specification vocabulary: ConvertSpec.v,
    DropsSpec.v. *)

From Coq Require Import ZArith Reals Lra Lia List Permutation String.
From Verif Require Import Py Geom GeomSpec Drops DropsSpec DropsProofs Convert ConvertSpec ConvertProofs ConvertMore ConvertCases CsvMore.
Import ListNotations.
Open Scope list_scope.
Open Scope R_scope.

(* ================================================================== *)
(** C53.  Nearest neighbour transfer.

    Space.find_nearest returns the first of the nearest samples. *)
Theorem C53_find_nearest : forall s p, s_ds s <> [] ->
  exists d, find_nearest s p = Ok d /\ first_nearest fst (s_ds s) p d.
Proof. exact find_nearest_ok. Qed.
Print Assumptions C53_find_nearest.

(** face_centered_interpolation: every face of the target gets T and Hw of a source face
    whose middle is nearest to its own, and nothing else of it changes.  [query] is the
    query of scipy's KDTree: it is assumed to give the place of a nearest point. *)
Theorem C53_interpolation : forall query,
  (forall pts p, pts <> [] -> exists e, nth_error pts (query pts p) = Some e /\ nearest (fun x => x) pts p e) ->
  forall source target, source <> [] ->
  exists out, face_centered_interpolation query source target = Ok out /\
    Forall2 (fun f g => only_changes [lit "T"; lit "Hw"] f g /\
      exists s, nearest middle source (middle f) s /\
        getitem g (lit "T") = getitem s (lit "T") /\ getitem g (lit "Hw") = getitem s (lit "Hw")) target out.
Proof. exact interpolation_ok. Qed.
Print Assumptions C53_interpolation.

(** lazurit_add_beta_from_ansys: every face gets Beta of the first of the nearest faces
    of the other grid, and nothing else of it changes. *)
Theorem C53_add_beta : forall lgrid agrid, agrid <> [] ->
  exists out, lazurit_add_beta lgrid agrid = Ok out /\
    Forall2 (fun f g => only_changes [lit "Beta"] f g /\
      exists s, first_nearest middle agrid (middle f) s /\ getitem g (lit "Beta") = getitem s (lit "Beta")) lgrid out.
Proof. exact add_beta_ok. Qed.
Print Assumptions C53_add_beta.

(** A query with the assumed property exists. *)
Example C53_example_query : forall pts p, pts <> [] ->
  exists e, nth_error pts (first_query pts p) = Some e /\ nearest (fun x => x) pts p e.
Proof. exact first_query_ok. Qed.

(** Two source faces, one target face next to the second of them. *)
Example C53_example :
  let at_x x d := DFace (V3 x 0 0) (V3 (x + 1) 0 0) (V3 x 1 0) d in
  exists out, lazurit_add_beta [at_x 9 [(lit "Beta", 0)]] [at_x 0 [(lit "Beta", 5)]; at_x 10 [(lit "Beta", 7)]] = Ok out /\
    map (fun f => getitem f (lit "Beta")) out = [7].
Proof.
  intros at_x. destruct (add_beta_ok [at_x 9 [(lit "Beta", 0)]] [at_x 0 [(lit "Beta", 5)]; at_x 10 [(lit "Beta", 7)]]) as (out & E & F); [discriminate|].
  exists out. split; auto. inversion F as [|f g l l' [_ (s & (l1 & l2 & El & H1 & H2) & Hb)] F']; subst. inversion F'; subst.
  cbn [map]. rewrite Hb. destruct l1 as [|y [|y' l1]]; cbn in El.
  - injection El as <- <-. specialize (H2 (at_x 10 [(lit "Beta", 7)]) ltac:(left; auto)). exfalso.
    unfold dist_to, vmod in H2. apply sqrt_le_0 in H2; [|apply mod2_nonneg|apply mod2_nonneg].
    revert H2. unfold mod2, dot, middle, at_x, vsub; cbn. lra.
  - injection El as <- <- _. reflexivity.
  - injection El as _ _ Q. destruct l1; discriminate.
Qed.

(* ================================================================== *)
(** C54.  Lazurit import.  A block of [zi] columns and [zj] rows of nodes.  When the texts
    of the last three variables are numbers, the zone is written.

    It has [zi * zj] nodes and two triangles per cell; the coordinate lines are the three
    parts of the grid file in order; both halves of every cell are among the links and no
    other links are written; every triangle has three different corners with numbers from 1
    to the number of nodes; and no directed edge belongs to two triangles, so triangles are
    oriented alike and an edge has at most two of them. *)
Theorem C54_triangles : forall neg zi zj gelems selems, (forall e, In e selems -> exists x, neg e = Ok x) ->
  exists z, lazurit_block neg zi zj gelems selems = Ok z /\
    lz_nodes z = (zi * zj)%nat /\ lz_elements z = (2 * ((zi - 1) * (zj - 1)))%nat /\ List.length (lz_links z) = lz_elements z /\
    lz_coords z = [slice gelems 0 (zi * zj); slice gelems (zi * zj) (2 * (zi * zj)); slice gelems (2 * (zi * zj)) (3 * (zi * zj))] /\
    (forall i j, (i < zi - 1)%nat -> (j < zj - 1)%nat -> In (lower_half zi i j) (lz_links z) /\ In (upper_half zi i j) (lz_links z)) /\
    (forall t, In t (lz_links z) -> exists i j, (i < zi - 1)%nat /\ (j < zj - 1)%nat /\ (t = lower_half zi i j \/ t = upper_half zi i j)) /\
    (forall t, In t (lz_links z) -> proper t /\ Forall (fun n => (1 <= n <= lz_nodes z)%nat) (corners3 t)) /\
    (forall k1 k2 t1 t2 e, nth_error (lz_links z) k1 = Some t1 -> nth_error (lz_links z) k2 = Some t2 ->
       In e (edges3 t1) -> In e (edges3 t2) -> k1 = k2).
Proof. exact block_mesh. Qed.
Print Assumptions C54_triangles.

(** Data.  The part of the property that both triangles of a cell carry the data of the
    cell holds for blocks with one row or one column of cells.  (The value of variable
    number [v] in cell [(i, j)] is number [v * cells + cell_no] in the solution file,
    where the column number [i] changes first, as for nodes.)  It is false for other
    blocks, see below. *)
Theorem C54_data_partial : forall neg zi zj gelems selems z, (zi <= 2 \/ zj <= 2)%nat ->
  lazurit_block neg zi zj gelems selems = Ok z ->
  forall v i j k, (v < 8)%nat -> (i < zi - 1)%nat -> (j < zj - 1)%nat ->
  (nth_error (lz_links z) k = Some (lower_half zi i j) \/ nth_error (lz_links z) k = Some (upper_half zi i j)) ->
  exists row, nth_error (lz_data z) v = Some row /\
    carries neg v (nth_error selems (v * ((zi - 1) * (zj - 1)) + cell_no zi i j)) (nth_error row k).
Proof. exact block_narrow. Qed.
Print Assumptions C54_data_partial.

(** In a block of 3 by 3 nodes the triangles of cell (0, 1) carry the data of cell (1, 0). *)
Theorem C54_data_refuted : exists neg zi zj gelems selems z v i j k row,
  lazurit_block neg zi zj gelems selems = Ok z /\ (forall e, In e selems -> exists x, neg e = Ok x) /\
  List.length selems = (8 * ((zi - 1) * (zj - 1)))%nat /\ (v < 8)%nat /\ (i < zi - 1)%nat /\ (j < zj - 1)%nat /\
  nth_error (lz_links z) k = Some (lower_half zi i j) /\ nth_error (lz_data z) v = Some row /\
  ~ carries neg v (nth_error selems (v * ((zi - 1) * (zj - 1)) + cell_no zi i j)) (nth_error row k).
Proof. exact swapped_wrong. Qed.
Print Assumptions C54_data_refuted.

(** What is written instead, for all blocks: triangles number [2c] and [2c+1] carry the
    value number [c] of every variable. *)
Theorem C54_data_order : forall neg zi zj gelems selems z, lazurit_block neg zi zj gelems selems = Ok z ->
  forall v c e, (v < 8)%nat -> (c < (zi - 1) * (zj - 1))%nat -> (e < 2)%nat ->
  exists row, nth_error (lz_data z) v = Some row /\
    carries neg v (nth_error selems (v * ((zi - 1) * (zj - 1)) + c)) (nth_error row (2 * c + e)).
Proof. exact block_data. Qed.
Print Assumptions C54_data_order.

(** A block of 3 by 2 nodes. *)
Example C54_example : exists z, lazurit_block same 3 2 (texts 18) (texts 16) = Ok z /\
  lz_links z = [(1, 4, 5); (1, 5, 2); (2, 5, 6); (2, 6, 3)]%nat /\
  nth_error (lz_data z) 1 = Some [lit "2"; lit "2"; lit "3"; lit "3"].
Proof. eexists. repeat split; reflexivity. Qed.

(* ================================================================== *)
(** C55.  ANSYS quads.  A quad with four different corners gives two triangles of a
    diagonal: the directed edges of the triangles are the boundary of the quad in its order
    (in the opposite order, if normals are reversed) and the diagonal in both directions. *)
Theorem C55_four_corners : forall reversed q, NoDup (corners q) ->
  exists t1 t2 x y, quad_faces reversed q = [t1; t2] /\ proper t1 /\ proper t2 /\ diagonal q x y /\
    Permutation (edges3 t1 ++ edges3 t2) ((x, y) :: (y, x) :: oriented reversed q).
Proof. exact quad_four. Qed.
Print Assumptions C55_four_corners.

(** A quad with three different corners gives one triangle of these corners.  If the
    corners that coincide follow each other, the triangle has the edges of the quad in its
    order (in the opposite order, if normals are reversed). *)
Theorem C55_three_corners : forall reversed q, List.length (nodup Nat.eq_dec (corners q)) = 3%nat ->
  exists t, quad_faces reversed q = [t] /\ proper t /\ (forall n, In n (corners3 t) <-> In n (corners q)) /\
    (pinched q -> Permutation (edges3 t) (real_edges (oriented reversed q))).
Proof. exact quad_three. Qed.
Print Assumptions C55_three_corners.

(** Every value of a face is the mean of the values of its corners. *)
Theorem C55_means : forall g, In g [c_htc; c_beta; c_taux; c_tauy; c_tauz; c_rf] ->
  forall a b c, g (mean_data a b c) = (g a + g b + g c) / 3.
Proof. exact mean_data_ok. Qed.
Print Assumptions C55_means.

Example C55_example : quad_faces true (1, 2, 3, 4)%nat = [(4, 3, 2); (4, 2, 1)]%nat /\
  quad_faces false (1, 2, 2, 4)%nat = [(1, 2, 4)]%nat /\ NoDup (corners (1, 2, 3, 4)%nat) /\
  List.length (nodup Nat.eq_dec (corners (1, 2, 2, 4)%nat)) = 3%nat /\ pinched (1, 2, 2, 4)%nat.
Proof. repeat split; auto; try reflexivity; [|cbn; auto]. repeat constructor; cbn; intuition lia. Qed.

(* ================================================================== *)
(** C59.  The total csv report of tables of one shape: the first column is that of the
    first table, every other entry is the sum of the entries of all tables. *)
Theorem C59_total_csv : forall n m d l, Forall (shaped n (S m)) (d :: l) ->
  exists out, total_csv (d :: l) = Ok (Some out) /\ shaped n (S m) out /\
    (forall i, (i < n)%nat -> exists x, cell d i 0 = Some x /\ cell out i 0 = Some x) /\
    (forall i j, (i < n)%nat -> (0 < j < S m)%nat -> exists xs, Forall2 (fun t x => cell t i j = Some x) (d :: l) xs /\ cell out i j = Some (sum xs)).
Proof. exact total_csv_ok. Qed.
Print Assumptions C59_total_csv.

(** Tables of different heights, none of one row, are not added: merge stops with ValueError.  So it does if the first table has one row and
    the others, of one height, more. *)
Theorem C59_heights : forall d l x, (forall t, In t (d :: l) -> List.length t <> 1%nat) -> In x l -> List.length x <> List.length d ->
  total_csv (d :: l) = Raise EValueError.
Proof. exact heights_differ. Qed.
Print Assumptions C59_heights.

Theorem C59_first_row : forall d l x n, List.length d = 1%nat -> In x l -> (forall t, In t l -> List.length t = n) -> n <> 1%nat ->
  total_csv (d :: l) = Raise EValueError.
Proof. exact first_row_main. Qed.
Print Assumptions C59_first_row.

(** But not all tables of different heights are refused: the row of a table of one row is added to every row. *)
Theorem C59_one_row_refuted : exists d x out, List.length d = 3%nat /\ List.length x = 1%nat /\ total_csv [d; x] = Ok (Some out) /\ List.length out = 3%nat /\
  forall i, (i < 3)%nat -> exists u v, cell d i 1 = Some u /\ cell x 0 1 = Some v /\ cell out i 1 = Some (u + v).
Proof. exact one_row_main. Qed.
Print Assumptions C59_one_row_refuted.

Example C59_heights_example : total_csv [[[1; 10]; [2; 20]]; [[1; 10]; [2; 20]]; [[1; 7]; [2; 8]; [3; 9]]] = Raise EValueError /\
  total_csv [[[1; 10]]; [[1; 7]; [2; 8]; [3; 9]]] = Raise EValueError.
Proof. split; reflexivity. Qed.

Example C59_example : Forall (shaped 2 3) [tab1; tab2] /\
  total_csv [tab1; tab2] = Ok (Some [[1; 10 + 100; 20 + 200]; [2; 11 + 110; 21 + 210]]).
Proof. split; [exact tabs_shaped|reflexivity]. Qed.

(* ================================================================== *)
(** C62.  Explosion of zones that have no common nodes: every node of a zone moves by [k]
    times the vector from the mean of the grid to the mean of its zone (both before the
    move); other nodes stay. *)
Theorem C62_explosion : forall P nodes zones k, nodes <> [] -> apart zones ->
  exists Q, move_from_mean_point P nodes zones k = Ok Q /\
    (forall z n, In z zones -> In n z -> Q n = vadd (P n) (vmul (vsub (mean (map P z)) (mean (map P nodes))) k)) /\
    (forall n, (forall z, In z zones -> ~ In n z) -> Q n = P n).
Proof. exact explosion_ok. Qed.
Print Assumptions C62_explosion.

(** So the shape of every zone is preserved. *)
Theorem C62_shape : forall P nodes zones k Q, apart zones -> move_from_mean_point P nodes zones k = Ok Q ->
  forall z m n, In z zones -> In m z -> In n z -> vsub (Q m) (Q n) = vsub (P m) (P n).
Proof. exact explosion_shape. Qed.
Print Assumptions C62_shape.

(** The grid and every zone must have nodes. *)
Theorem C62_empty : forall P nodes zones k, nodes = [] \/ In [] zones ->
  (exists Q, move_from_mean_point P nodes zones k = Ok Q) -> False.
Proof. exact explosion_empty. Qed.
Print Assumptions C62_empty.

Example C62_example : apart [[0%nat; 1%nat]; [2%nat; 3%nat]].
Proof. exact two_apart. Qed.

(** With a common node (a grid loaded with merging of nodes) the shape is not preserved. *)
Example C62_example_common : forall Q, move_from_mean_point line_points [0%nat; 1%nat; 2%nat] [[0%nat; 1%nat]; [1%nat; 2%nat]] 1 = Ok Q ->
  vsub (Q 1%nat) (Q 0%nat) <> vsub (line_points 1) (line_points 0).
Proof. exact shared_node. Qed.

(* ================================================================== *)
(** C72.  Heat transfer coefficient and recovery factor of a node: the static temperature
    of the adiabatic case is [t_air + rf * v^2 / (2 cp)], and the flux is minus [htc] times
    the difference of the surface temperature and that temperature. *)
Theorem C72_htc : forall t_air v cp flux ts stat, v <> 0 -> cp <> 0 -> ts <> stat ->
  exists htc rf, htc_recovery_factor t_air v cp flux ts stat = Ok (htc, rf) /\
    stat = t_air + rf * (v * v) / (2 * cp) /\ htc * (ts - stat) = - flux.
Proof. exact htc_ok. Qed.
Print Assumptions C72_htc.

(** In all other cases there is an exception. *)
Theorem C72_htc_raises : forall t_air v cp flux ts stat, v = 0 \/ cp = 0 \/ ts = stat ->
  htc_recovery_factor t_air v cp flux ts stat = Raise EZeroDivisionError.
Proof. exact htc_raises. Qed.
Print Assumptions C72_htc_raises.

Example C72_example : exists htc rf, htc_recovery_factor 260 10 1000 30 275 265 = Ok (htc, rf) /\ htc = -3 /\ rf = 100.
Proof.
  destruct (htc_ok 260 10 1000 30 275 265) as (h & r & E & A & B); try lra. exists h, r. split; auto. split; lra.
Qed.

(* ================================================================== *)
(** C73.  Clean-up of a zone of the converter.  After DeleteExtraNodes and
    RestoreNodesIndices the zone has exactly the nodes used by faces, and the links that
    Export writes lead to the corners of faces. *)
Theorem C73_export_after_clean : forall z ids, NoDup (cz_nodes z) ->
  (forall f n, In f (cz_faces z) -> In n (corners3 f) -> In n (cz_nodes z)) ->
  let z' := delete_extra_nodes z in
  cz_faces z' = cz_faces z /\
  (forall n, In n (cz_nodes z') <-> exists f, In f (cz_faces z) /\ In n (corners3 f)) /\
  Forall2 (fun f l => let '(a, b, c) := f in let '(x, y, w) := l in
    (1 <= x)%nat /\ (1 <= y)%nat /\ (1 <= w)%nat /\
    nth_error (cz_nodes z') (x - 1) = Some a /\ nth_error (cz_nodes z') (y - 1) = Some b /\ nth_error (cz_nodes z') (w - 1) = Some c)
    (cz_faces z) (export_links z' (restore_nodes_indices z' ids)).
Proof. exact export_after_clean. Qed.
Print Assumptions C73_export_after_clean.

(** ReplaceNode puts the new node everywhere in place of the old one. *)
Theorem C73_replace_node : forall z on nn, on <> nn ->
  let z' := replace_node z on nn in
  (forall k, nth_error (cz_nodes z') k = option_map (fun n => if Nat.eqb n on then nn else n) (nth_error (cz_nodes z) k)) /\
  ~ In on (cz_nodes z') /\ (forall f, In f (cz_faces z') -> ~ In on (corners3 f)) /\
  List.length (cz_faces z') = List.length (cz_faces z).
Proof. exact replace_node_ok. Qed.
Print Assumptions C73_replace_node.

Example C73_example : let z := delete_extra_nodes (CZone [10; 11; 12; 13]%nat [(10, 12, 13)]%nat) in
  cz_nodes z = [10; 12; 13]%nat /\ export_links z (restore_nodes_indices z (fun n => n)) = [(1, 2, 3)]%nat.
Proof. split; reflexivity. Qed.

(* ================================================================== *)
(** C74.  Pairs of Lazurit files.  If the files with '.TEC' in their names are the grid
    files and the solution files of some blocks, in any order, then every block gives one
    pair: its grid file and its solution file. *)
Theorem C74_pairs : forall bs listing,
  Permutation (filter (contains (lit ".TEC")) listing) (map grid_name bs ++ map solution_name bs) ->
  exists bs', Permutation bs' bs /\ directory_pairs listing = Ok (map (fun b => (grid_name b, solution_name b)) bs').
Proof. exact directory_pairs_all. Qed.
Print Assumptions C74_pairs.

(** Nothing else is accepted: the list of files consists of the pairs. *)
Theorem C74_only_pairs : forall l ps, file_pairs l = Ok ps ->
  l = map fst ps ++ map snd ps /\ Forall (fun p => exists b, fst p = grid_name b /\ snd p = solution_name b) ps.
Proof. exact file_pairs_inv. Qed.
Print Assumptions C74_only_pairs.

Example C74_example : directory_pairs
  [lit "TEC_WALL_Solution_B1.TEC"; lit "readme"; lit "TEC_WALL_Grid_B2.TEC"; lit "TEC_WALL_Solution_B2.TEC"; lit "TEC_WALL_Grid_B1.TEC"] =
  Ok [(lit "TEC_WALL_Grid_B1.TEC", lit "TEC_WALL_Solution_B1.TEC"); (lit "TEC_WALL_Grid_B2.TEC", lit "TEC_WALL_Solution_B2.TEC")].
Proof. reflexivity. Qed.
