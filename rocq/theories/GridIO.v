(** Model of loading and storing grids: Grid.load (grid.py:471-584) and Grid.store
    (grid.py:612-659).  A file is its text; opening a missing or undecodable file is
    not modelled. *)

From Coq Require Import ZArith NArith Ascii String Bool List.
From Verif Require Import Py Heap GridModel Mpi.
Import ListNotations.
Open Scope list_scope.
Open Scope nat_scope.

Section IO.
  Context {F : FloatOps}.

  (* ---------------------------------------------------------------- *)
  (** ** Lines *)

  (** `[float(xi) for xi in line.split()]`, grid.py:538, 549. *)
  Definition floats (line : str) : res (list val) :=
    rmap (fun s => match prs s with Some v => Ok v | None => Raise EValueError end) (split_ws line).

  (** The loops of grid.py:536-538 and 547-549: reads and converts [k] lines. *)
  Fixpoint read_rows (k : nat) (ls : list str) : res (list (list val) * list str) :=
    match k with
    | O => Ok ([], ls)
    | S k' =>
        let '(line, ls1) := readline ls in
        do v <- floats line;
        do r <- read_rows k' ls1;
        Ok (v :: fst r, snd r)
    end.

  (** `line.split('=')[1][1:-2]`, grid.py:496. *)
  Definition title_of (line : str) : res str :=
    do s <- py_get (split_on eqsign line) 1; Ok (py_slice s 1 (-2)).

  (** `line.split('=')[-1]`, grid.py:498, 506, 530, 532. *)
  Definition after_eq (line : str) : res str := py_get (split_on eqsign line) (-1).

  (** The list of variables, grid.py:498-499. *)
  Definition variables_of (line : str) : res (list str) :=
    do s <- after_eq line;
    Ok (split_ws (remove_char comma (remove_char dquote (py_to s (-1))))).

  (** `line.split('=')[-1][1:-2]`, grid.py:506. *)
  Definition zone_name_of (line : str) : res str :=
    do s <- after_eq line; Ok (py_slice s 1 (-2)).

  (** `int(line.split('=')[-1][:-1])`, grid.py:530, 532. *)
  Definition count_of (line : str) : res Z :=
    do s <- after_eq line; py_int (py_to s (-1)).

  (** The expected VARLOCATION line, grid.py:524-525. *)
  Definition varlocation (nvars : nat) : str :=
    lit "VARLOCATION=([4-" ++ nat_str nvars ++ lit "]=CELLCENTERED)".

  (* ---------------------------------------------------------------- *)
  (** ** One zone *)

  (** grid.py:539-543; [c] are the three lists of coordinates. *)
  Definition load_nodes (z : nat) (merge : bool) (c : list (list val)) (n : Z) : M unit :=
    for_each (seq 0 (Z.to_nat n)) (fun i =>
      x <- lift (do l <- py_get c 0; py_get l (Z.of_nat i)) ;;
      y <- lift (do l <- py_get c 1; py_get l (Z.of_nat i)) ;;
      zc <- lift (do l <- py_get c 2; py_get l (Z.of_nat i)) ;;
      node <- new_node (x, y, zc) ;;
      node' <- add_node node merge ;;
      zone_add_node z node').

  (** grid.py:550-554; [d] are the lists of values, one for every variable. *)
  Definition load_faces (z : nat) (vars : list str) (d : list (list val)) (m : Z) : M unit :=
    for_each (seq 0 (Z.to_nat m)) (fun i =>
      vs <- lift (rmap (fun l => py_get l (Z.of_nat i)) d) ;;
      face <- new_face (dict_of str_dec (combine vars vs)) ;;
      add_face face None ;;;
      zone_add_face z face).

  (** grid.py:560: `[zone.Nodes[int(ss) - 1] for ss in line.split()]`. *)
  Definition corner_nodes (zn : list nat) (line : str) : res (list nat) :=
    rmap (fun ss => do k <- py_int ss; py_get zn (k - 1)%Z) (split_ws line).

  (** grid.py:557-566; returns the lines left. *)
  Fixpoint load_conn (z : nat) (is : list nat) (ls : list str) : M (list str) :=
    match is with
    | [] => ret ls
    | i :: r =>
        let '(line, ls1) := readline ls in
        fs <- gets (fun h => z_faces h z) ;;
        face <- lift (py_get fs (Z.of_nat i)) ;;
        zn <- gets (fun h => z_nodes h z) ;;
        nodes <- lift (corner_nodes zn line) ;;
        match nodes with
        | [a; b; c] =>
            link_node_face a face ;;; link_node_face b face ;;; link_node_face c face ;;;
            load_conn z r ls1
        | _ => raise EException
        end
    end.

  (** `if cond: raise Exception(...)`. *)
  Definition raise_if (b : bool) : M unit := if b then raise EException else ret tt.

  (** grid.py:503-566: the zone line and the block after it; returns the lines left. *)
  Definition load_zone (merge : bool) (vars : list str) (line : str) (ls : list str) : M (list str) :=
    name <- lift (zone_name_of line) ;;
    z <- new_zone name ;;
    append_zone z ;;;
    let '(nodes_line, ls1) := readline ls in
    let '(faces_line, ls2) := readline ls1 in
    let '(packing_line, ls3) := readline ls2 in
    let '(zonetype_line, ls4) := readline ls3 in
    let '(varlocation_line, ls5) := readline ls4 in
    raise_if (negb (contains (lit "NODES=") nodes_line)) ;;;
    raise_if (negb (contains (lit "ELEMENTS=") faces_line)) ;;;
    raise_if (negb (str_eqb (lit "DATAPACKING=BLOCK") (py_to packing_line (-1)))) ;;;
    raise_if (negb (str_eqb (lit "ZONETYPE=FETRIANGLE") (py_to zonetype_line (-1)))) ;;;
    raise_if (negb (str_eqb (varlocation (length vars)) (py_to varlocation_line (-1)))) ;;;
    n <- lift (count_of nodes_line) ;;
    m <- lift (count_of faces_line) ;;
    cr <- lift (read_rows 3 ls5) ;;
    load_nodes z merge (fst cr) n ;;;
    dr <- lift (read_rows (length (skipn 3 vars)) (snd cr)) ;;
    load_faces z (skipn 3 vars) (fst dr) m ;;;
    load_conn z (seq 0 (Z.to_nat m)) (snd dr).

  (* ---------------------------------------------------------------- *)
  (** ** The whole file *)

  (** The while loop, grid.py:490-571.  Every pass reads at least one line, so the
      number of lines bounds the number of passes. *)
  Fixpoint load_loop (fuel : nat) (merge : bool) (vars : list str) (ls : list str) : M unit :=
    match fuel with
    | O => raise EOutOfFuel
    | S k =>
        match ls with
        | [] => ret tt
        | line :: ls1 =>
            if (match line with c :: _ => Ascii.eqb c hash | [] => false end)
            then load_loop k merge vars ls1
            else if contains (lit "TITLE=") line then
              t <- lift (title_of line) ;;
              modify (fun h => set_g_name h t) ;;;
              load_loop k merge vars ls1
            else if contains (lit "VARIABLES=") line then
              vs <- lift (variables_of line) ;;
              load_loop k merge vs ls1
            else if contains (lit "ZONE T=") line then
              ls2 <- load_zone merge vars line ls1 ;;
              load_loop k merge vars ls2
            else raise EException
        end
    end.

  (** Body of the loop of grid.py:575-581. *)
  Definition link_face_edges (f : nat) : M unit :=
    ns <- gets (fun h => f_nodes h f) ;;
    a <- lift (py_get ns 0) ;;
    b <- lift (py_get ns 1) ;;
    c <- lift (py_get ns 2) ;;
    complex_link f a b ;;;
    complex_link f a c ;;;
    complex_link f b c.

  (** `grid = Grid()`, Grid.__init__, grid.py:21-38: the variable [grid] gets a new
      empty grid; the other objects of the process stay. *)
  Definition new_grid (h : heap) : heap :=
    set_g_nborder (set_g_bag (set_g_zones (set_g_faces (set_g_edges (set_g_nodes (set_g_name h []) []) []) []) []) []) 0.

  (** Grid.load, grid.py:471-584, on the text of the file. *)
  Definition load (merge : bool) (text : str) : M unit :=
    clear ;;;
    (let ls := file_lines text in load_loop (S (length ls)) merge [] ls) ;;;
    fs <- gets g_faces ;;
    for_each fs link_face_edges ;;;
    link_nodes_and_edges_to_zones.

  (* ---------------------------------------------------------------- *)
  (** ** Storing *)

  (** `[-1] * n`. *)
  Definition minus_ones (n : nat) : list Z := repeat (-1)%Z n.

  (** One connectivity line, grid.py:657. *)
  Definition conn_str (h : heap) (tbl : list Z) (f : nat) : res str :=
    do ks <- local_ids (n_glo h) tbl (f_nodes h f);
    Ok (join [sp] (map (fun k => Z_str (k + 1)) ks) ++ [nl]).

  (** Body of the loop over zones, grid.py:635-657; the table of local identifiers is
      passed from zone to zone. *)
  Definition store_zone (h : heap) (vars : list str) (nvars : nat) (tbl : list Z) (z : nat)
    : res (str * list Z) :=
    do tbl' <- locate (n_glo h) tbl 0 (z_nodes h z);
    do conn <- rmap (conn_str h tbl') (z_faces h z);
    Ok (lit "ZONE T=""" ++ z_name h z ++ lit """" ++ [nl] ++
        lit "NODES=" ++ nat_str (length (z_nodes h z)) ++ [nl] ++
        lit "ELEMENTS=" ++ nat_str (length (z_faces h z)) ++ [nl] ++
        lit "DATAPACKING=BLOCK" ++ [nl] ++
        lit "ZONETYPE=FETRIANGLE" ++ [nl] ++
        varlocation nvars ++ [nl] ++
        concat (map (fun i => vals_str (nodes_coord_slice h z i) ++ [sp; nl]) [0; 1; 2]) ++
        concat (map (fun e => vals_str (faces_data_slice h z e) ++ [sp; nl]) vars) ++
        concat conn, tbl').

  (** The loop over zones, grid.py:635. *)
  Fixpoint store_zones (h : heap) (vars : list str) (nvars : nat) (tbl : list Z) (zs : list nat)
    : res str :=
    match zs with
    | [] => Ok []
    | z :: r =>
        do zt <- store_zone h vars nvars tbl z;
        do s <- store_zones h vars nvars (snd zt) r;
        Ok (fst zt ++ s)
    end.

  (** Grid.store, grid.py:612-659: the text of the file.  (Simplification: the part
      of the file written before an exception is not represented.) *)
  Definition store (h : heap) : res str :=
    do f0 <- py_get (g_faces h) 0;
    let vars := keys (f_data h f0) in
    let variables := map lit ["X"; "Y"; "Z"]%string ++ vars in
    do zs <- store_zones h vars (length variables) (minus_ones (length (g_nodes h))) (g_zones h);
    Ok (lit "# crys-gsu" ++ [nl] ++
        lit "TITLE=""" ++ g_name h ++ lit """" ++ [nl] ++
        lit "VARIABLES=" ++ join (lit ", ") (map (fun k => lit """" ++ k ++ lit """") variables) ++ [nl] ++
        zs).
End IO.
