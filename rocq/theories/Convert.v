(** Model of the converters (convert/interpolate.py, convert/lazurit_add_beta_from_ansys.py,
    convert/lazurit_to_crystal.py, convert/gsu_converter.py), of the total csv report of
    merge.py and of Grid.move_from_mean_point (gsu/grid.py).

    Numbers are real numbers where arithmetic is done (see Geom.v); fields that are only
    copied between files are kept as texts. *)

From Coq Require Import ZArith Reals Bool List String Ascii.
From Verif Require Import Py Geom Drops.
Import ListNotations.
Open Scope list_scope.

(* ---------------------------------------------------------------- *)
(** ** Nearest neighbour transfer *)

(** dual_mesh, interpolate.py:48-56, and all_coordinates_of_aux_nodes, interpolate.py:27-45:
    the centroids of faces. *)
Definition aux_node (f : dface) : vect := centroid (get_triangle f 0).
Definition aux_nodes (l : list dface) : list vect := map aux_node l.

(** face_centered_interpolation, interpolate.py:59-77.  [query] stands for
    KDTree(points).query(p)[1] of scipy, which is not modelled. *)
Definition face_centered_interpolation (query : list vect -> vect -> nat) (source target : list dface) : res (list dface) :=
  rmap (fun f =>
    match nth_error source (query (aux_nodes source) (aux_node f)) with
    | None => Raise EIndexError
    | Some g => Ok (setitem (setitem f kT (getitem g kT)) kHw (getitem g kHw))
    end) target.

(** Names of data fields. *)
Definition kBeta : str := lit "Beta".

(** Face.get_center, face.py:124-133, wrapped by Vect.from_iterable. *)
Definition get_center (f : dface) : vect :=
  V3 ((vx (df_a f) + vx (df_b f) + vx (df_c f)) / 3)
     ((vy (df_a f) + vy (df_b f) + vy (df_c f)) / 3)
     ((vz (df_a f) + vz (df_b f) + vz (df_c f)) / 3).

(** lazurit_add_beta_from_ansys.py:73-77. *)
Definition lazurit_add_beta (lgrid agrid : list dface) : res (list dface) :=
  let adata := map (fun f => (get_center f, getitem f kBeta)) agrid in
  rmap (fun f =>
    let c := get_center f in
    do i <- argmin (map (fun a => mod2 (vsub c (fst a))) adata);
    match nth_error adata i with
    | None => Raise EIndexError
    | Some a => Ok (setitem f kBeta (snd a))
    end) lgrid.

(* ---------------------------------------------------------------- *)
(** ** Lazurit *)

(** double_list, lazurit_to_crystal.py:65-74. *)
Definition double_list (l : list str) : list str := flat_map (fun e => [e; e]) l.

(** double_and_neg_list, lazurit_to_crystal.py:79-88; [neg] stands for str(-float(e)). *)
Definition double_and_neg_list (neg : str -> res str) (l : list str) : res (list str) :=
  do ll <- rmap (fun e => do x <- neg e; do y <- neg e; Ok [x; y]) l;
  Ok (List.concat ll).

(** leap_lines, lazurit_to_crystal.py:37-46. *)
Definition leap_lines (ls : list str) : list str := flat_map split_ws ls.

(** The links, lazurit_to_crystal.py:195-202. *)
Definition links (zone_i zone_j : nat) : list (nat * nat * nat) :=
  flat_map (fun i =>
    flat_map (fun j =>
      let ni00 := (i + j * zone_i)%nat in
      let ni01 := (i + (j + 1) * zone_i)%nat in
      let ni10 := ((i + 1) + j * zone_i)%nat in
      let ni11 := ((i + 1) + (j + 1) * zone_i)%nat in
      [(ni00 + 1, ni01 + 1, ni11 + 1)%nat; (ni00 + 1, ni11 + 1, ni10 + 1)%nat])
      (seq 0 (zone_j - 1))) (seq 0 (zone_i - 1)).

(** l[a: b] with 0 <= a <= b. *)
Definition slice {A} (l : list A) (a b : nat) : list A := firstn (b - a) (skipn a l).

(** A zone of the written file: NODES, ELEMENTS, the three lines of coordinates, the eight
    lines of data, the links. *)
Record lazurit_zone : Type := LZone {
  lz_nodes : nat; lz_elements : nat;
  lz_coords : list (list str); lz_data : list (list str); lz_links : list (nat * nat * nat) }.

(** The zone written for a pair of files, lazurit_to_crystal.py:157-202, after the sizes
    zone_i, zone_j (with zone_k = 1) and the tokens of both files have been read.  Sizes are
    natural numbers here (a size below 1 is not considered). *)
Definition lazurit_block (neg : str -> res str) (zone_i zone_j : nat) (gelems selems : list str) : res lazurit_zone :=
  let nc := (zone_i * zone_j * 1)%nat in
  let hec := ((zone_i - 1) * (zone_j - 1))%nat in
  do d5 <- double_and_neg_list neg (slice selems (5 * hec) (6 * hec));
  do d6 <- double_and_neg_list neg (slice selems (6 * hec) (7 * hec));
  do d7 <- double_and_neg_list neg (slice selems (7 * hec) (8 * hec));
  Ok (LZone nc (2 * hec)
        [slice gelems 0 nc; slice gelems nc (2 * nc); slice gelems (2 * nc) (3 * nc)]
        [double_list (slice selems 0 hec); double_list (slice selems hec (2 * hec));
         double_list (slice selems (2 * hec) (3 * hec)); double_list (slice selems (3 * hec) (4 * hec));
         double_list (slice selems (4 * hec) (5 * hec)); d5; d6; d7]
        (links zone_i zone_j)).

(** get_block_name, lazurit_to_crystal.py:51-60; None if there is no letter B. *)
Fixpoint last_b (s : str) : option str :=
  match s with
  | [] => None
  | c :: r => match last_b r with
              | Some t => Some t
              | None => if Ascii.eqb c "B"%char then Some s else None
              end
  end.
Definition get_block_name (s : str) : option str :=
  match last_b s with Some t => Some (firstn (List.length t - 4) t) | None => None end.

(** The checks of a pair of file names, lazurit_to_crystal.py:137-146. *)
Definition pair_ok (gfn sfn : str) : bool :=
  str_eqb (firstn 14 gfn) (lit "TEC_WALL_Grid_") && str_eqb (firstn 18 sfn) (lit "TEC_WALL_Solution_") &&
  str_eqb (skipn 14 gfn) (skipn 18 sfn).

(** The pairs of files, lazurit_to_crystal.py:119-146; [all_files] is the sorted list. *)
Fixpoint pairs_from (k : nat) (fi : nat) (all_files : list str) : res (list (str * str)) :=
  match k with
  | O => Ok []
  | S k =>
      do gfn <- py_get all_files (Z.of_nat fi);
      do sfn <- py_get all_files (Z.of_nat (fi + List.length all_files / 2));
      if pair_ok gfn sfn then
        do r <- pairs_from k (S fi) all_files; Ok ((gfn, sfn) :: r)
      else Raise EException
  end.
Definition file_pairs (all_files : list str) : res (list (str * str)) :=
  if Nat.eqb (List.length all_files mod 2) 1 then Raise EException
  else pairs_from (List.length all_files / 2) 0 all_files.

(** Comparison of strings, as used by sorted, lazurit_to_crystal.py:119. *)
Fixpoint str_leb (a b : str) : bool :=
  match a, b with
  | [], _ => true
  | _ :: _, [] => false
  | x :: a, y :: b =>
      if Nat.ltb (nat_of_ascii x) (nat_of_ascii y) then true
      else if Nat.eqb (nat_of_ascii x) (nat_of_ascii y) then str_leb a b else false
  end.

(** sorted, lazurit_to_crystal.py:119 (any sorting gives the same list). *)
Fixpoint insert_str (x : str) (l : list str) : list str :=
  match l with [] => [x] | y :: r => if str_leb x y then x :: l else y :: insert_str x r end.
Definition sort_str (l : list str) : list str := fold_right insert_str [] l.

(** The pairs of files of a directory, lazurit_to_crystal.py:119-146. *)
Definition directory_pairs (listing : list str) : res (list (str * str)) :=
  file_pairs (sort_str (filter (contains (lit ".TEC")) listing)).

(* ---------------------------------------------------------------- *)
(** ** ANSYS *)

(** The faces of a quad, gsu_converter.py:251-275.  Nodes are compared by identity (class
    Node has no __eq__): they are numbers here. *)
Definition quad_faces (is_reversed_normals : bool) (q : nat * nat * nat * nat) : list (nat * nat * nat) :=
  let '(m1, m2, m3, m4) := q in
  let '(n1, n2, n3, n4) := if is_reversed_normals then (m4, m3, m2, m1) else (m1, m2, m3, m4) in
  if Nat.eqb n1 n2 then [(n1, n3, n4)]
  else if Nat.eqb n1 n3 then [(n1, n2, n4)]
  else if Nat.eqb n1 n4 then [(n1, n2, n3)]
  else if Nat.eqb n2 n3 then [(n1, n2, n4)]
  else if Nat.eqb n2 n4 then [(n1, n2, n3)]
  else if Nat.eqb n3 n4 then [(n1, n2, n3)]
  else [(n1, n2, n3); (n1, n3, n4)].

Open Scope R_scope.

(** The data of a node and of a face: HTC, Beta, Tau, RecoveryFactor
    (gsu_converter.py:58-62 and 106-110). *)
Record cdata : Type := CData { c_htc : R; c_beta : R; c_taux : R; c_tauy : R; c_tauz : R; c_rf : R }.

(** The body of ConvertDataFromNodesToFaces, gsu_converter.py:300-308. *)
Definition mean_data (a b c : cdata) : cdata :=
  CData ((c_htc a + c_htc b + c_htc c) / 3)
        ((c_beta a + c_beta b + c_beta c) / 3)
        ((c_taux a + c_taux b + c_taux c) / 3)
        ((c_tauy a + c_tauy b + c_tauy c) / 3)
        ((c_tauz a + c_tauz b + c_tauz c) / 3)
        ((c_rf a + c_rf b + c_rf c) / 3).

(** calculate_htc_recovery_factor, ansys_to_crystal.py:427-443, for the numbers of one row:
    Flux, Ts and StatT of the row give HTC and RecoveryFactor. *)
Definition htc_recovery_factor (air_temperature air_velocity heat_capacity flux0 t_surf static_temperature : R) : res (R * R) :=
  let flux := - flux0 in
  do k <- py_div (2 * heat_capacity) (air_velocity * air_velocity);
  let recovery_factor := (static_temperature - air_temperature) * k in
  do q <- py_div recovery_factor k;
  do htc <- py_div flux (t_surf - (air_temperature + q));
  Ok (htc, recovery_factor).

(** Zone of gsu_converter.py:115-129: node numbers and faces. *)
Record czone : Type := CZone { cz_nodes : list nat; cz_faces : list (nat * nat * nat) }.

(** Zone.ReplaceNode, gsu_converter.py:132-148. *)
Definition repl (on nn n : nat) : nat := if Nat.eqb n on then nn else n.
Definition replace_node (z : czone) (on nn : nat) : czone :=
  CZone (map (repl on nn) (cz_nodes z))
        (map (fun f => let '(a, b, c) := f in (repl on nn a, repl on nn b, repl on nn c)) (cz_faces z)).

(** Zone.DeleteExtraNodes, gsu_converter.py:161-170. *)
Definition delete_extra_nodes (z : czone) : czone :=
  let ns := fold_left (fun ns f => let '(a, b, c) := f in ns ++ [a; b; c]) (cz_faces z) [] in
  CZone (filter (fun n => existsb (Nat.eqb n) ns) (cz_nodes z)) (cz_faces z).

(** Zone.RestoreNodesIndices, gsu_converter.py:151-158: Id of every node. *)
Fixpoint restore_from (i : nat) (ns : list nat) (ids : nat -> nat) : nat -> nat :=
  match ns with
  | [] => ids
  | n :: r => restore_from (S i) r (fun m => if Nat.eqb m n then i else ids m)
  end.
Definition restore_nodes_indices (z : czone) (ids : nat -> nat) : nat -> nat := restore_from 0 (cz_nodes z) ids.

(** The links written by Export, gsu_converter.py:446-447. *)
Definition export_links (z : czone) (ids : nat -> nat) : list (nat * nat * nat) :=
  map (fun f => let '(a, b, c) := f in ((ids a + 1)%nat, (ids b + 1)%nat, (ids c + 1)%nat)) (cz_faces z).

(* ---------------------------------------------------------------- *)
(** ** The total csv report *)

(** read_csv2d, merge.py:72-76: rows of numbers.  numpy.genfromtxt is not modelled; it gives
    a table whose rows have the same length. *)
Definition table := list (list R).

(** [a + b] of numpy for two one-dimensional arrays: a length that is 1 is extended to
    the other length. *)
Definition stretch {A} (n : nat) (l : list A) : list A :=
  match l with [x] => repeat x n | _ => l end.
Definition common (n m : nat) : option nat :=
  if Nat.eqb n m then Some n else if Nat.eqb n 1 then Some m else if Nat.eqb m 1 then Some n else None.
Fixpoint zip_with {A B C} (f : A -> B -> C) (l : list A) (m : list B) : list C :=
  match l, m with x :: l, y :: m => f x y :: zip_with f l m | _, _ => [] end.
Definition row_add (a b : list R) : res (list R) :=
  match common (List.length a) (List.length b) with
  | Some n => Ok (zip_with Rplus (stretch n a) (stretch n b))
  | None => Raise EValueError
  end.

(** [a + b] of numpy for two tables, merge.py:85. *)
Definition table_add (a b : table) : res table :=
  match common (List.length a) (List.length b) with
  | Some n => rmap (fun x => row_add (fst x) (snd x)) (zip_with pair (stretch n a) (stretch n b))
  | None => Raise EValueError
  end.

(** [d[:, :1]] and [d[:, 1:]], merge.py:82-85. *)
Definition first_col (d : table) : table := map (firstn 1) d.
Definition other_cols (d : table) : table := map (skipn 1) d.

(** np.hstack, merge.py:86. *)
Definition hstack (t d : table) : res table :=
  if Nat.eqb (List.length t) (List.length d) then Ok (zip_with (fun a b => a ++ b) t d) else Raise EValueError.

(** for csv_file in csv_files[1:], merge.py:84-85. *)
Fixpoint sum_tables (d : table) (l : list table) : res table :=
  match l with
  | [] => Ok d
  | x :: r => do d' <- table_add d (other_cols x); sum_tables d' r
  end.

(** The table that is written, merge.py:79-86; None if there are no csv files. *)
Definition total_csv (l : list table) : res (option table) :=
  match l with
  | [] => Ok None
  | d :: r => do s <- sum_tables (other_cols d) r; do x <- hstack (first_col d) s; Ok (Some x)
  end.

(* ---------------------------------------------------------------- *)
(** ** Explosion of zones *)

(** mean_p of move_from_mean_point, grid.py:1107-1108; [P] is the map from nodes to
    their points. *)
Definition mean_p (P : nat -> vect) (ns : list nat) : res vect :=
  vdivr (fold_left (fun s n => vadd s (P n)) ns (V3 0 0 0)) (INR (List.length ns)).

(** n.P += shift for all nodes of a list, grid.py:1121-1122 (the second time for a
    node that occurs twice). *)
Definition shift_nodes (P : nat -> vect) (ns : list nat) (s : vect) : nat -> vect :=
  fold_left (fun P n => fun m => if Nat.eqb m n then vadd (P n) s else P m) ns P.

(** The loop over zones, grid.py:1114-1122. *)
Fixpoint move_zones (g_mean : vect) (k : R) (P : nat -> vect) (zones : list (list nat)) : res (nat -> vect) :=
  match zones with
  | [] => Ok P
  | z :: r =>
      do z_mean <- mean_p P z;
      move_zones g_mean k (shift_nodes P z (vmul (vsub z_mean g_mean) k)) r
  end.

(** Grid.move_from_mean_point, grid.py:1095-1122. *)
Definition move_from_mean_point (P : nat -> vect) (nodes : list nat) (zones : list (list nat)) (k : R) : res (nat -> vect) :=
  do g_mean <- mean_p P nodes; move_zones g_mean k P zones.
