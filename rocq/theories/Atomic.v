(** Model of the atomic transformations of a grid and of border marking:
    gsu/grid.py (1167-1996), gsu/node.py (70-89), gsu/edge.py (29-40),
    gsu/face.py (155-171). *)

From Coq Require Import ZArith NArith Ascii String Bool List.
From Verif Require Import Py Heap GridModel.
Import ListNotations.
Open Scope list_scope.

Section Atomic.
  Context {F : FloatOps}.

  (** Assignments to one list attribute of one object. *)
  Definition put_n_edges (n : nat) (l : list nat) : M unit := modify (fun h => set_n_edges h (upd (n_edges h) n l)).
  Definition put_n_faces (n : nat) (l : list nat) : M unit := modify (fun h => set_n_faces h (upd (n_faces h) n l)).
  Definition put_e_nodes (e : nat) (l : list nat) : M unit := modify (fun h => set_e_nodes h (upd (e_nodes h) e l)).
  Definition put_e_faces (e : nat) (l : list nat) : M unit := modify (fun h => set_e_faces h (upd (e_faces h) e l)).
  Definition put_f_nodes (f : nat) (l : list nat) : M unit := modify (fun h => set_f_nodes h (upd (f_nodes h) f l)).
  Definition put_f_edges (f : nat) (l : list nat) : M unit := modify (fun h => set_f_edges h (upd (f_edges h) f l)).
  Definition put_z_nodes (z : nat) (l : list nat) : M unit := modify (fun h => set_z_nodes h (upd (z_nodes h) z l)).
  Definition put_z_edges (z : nat) (l : list nat) : M unit := modify (fun h => set_z_edges h (upd (z_edges h) z l)).

  (** `l.remove(x)` on a list attribute: [get] reads it, [put] assigns it; ValueError
      if there is no element equal to [x] (decided by [eqb]). *)
  Definition remove_from (get : heap -> list nat) (put : list nat -> M unit) (eqb : nat -> bool) : M unit :=
    l <- gets get ;;
    match remove1 eqb l with None => raise EValueError | Some l' => put l' end.

  (** `if x in l: l.remove(x)`. *)
  Definition remove_if (get : heap -> list nat) (put : list nat -> M unit) (eqb : nat -> bool) : M unit :=
    l <- gets get ;;
    if mem eqb l then remove_from get put eqb else ret tt.

  (** `face.Zone` where an attribute of the zone is used next: AttributeError if None. *)
  Definition zone_of (f : nat) : M nat := fun h =>
    match f_zone h f with Some z => (Ok z, h) | None => (Raise EAttributeError, h) end.

  (** Use of a value read from `face.Zone` as a zone: AttributeError if it is None. *)
  Definition some_zone (zo : option nat) : M nat :=
    lift (match zo with Some z => Ok z | None => Raise EAttributeError end).

  (** `l[0]` and `l[1]`. *)
  Definition item0 (l : list nat) : M nat := lift (match l with x :: _ => Ok x | [] => Raise EIndexError end).
  Definition item1 (l : list nat) : M nat := lift (match l with _ :: x :: _ => Ok x | _ => Raise EIndexError end).

  (* ---------------------------------------------------------------- *)
  (** ** Border marking *)

  (** Body of the loops of Grid.mark_all_fixed_nodes for one node, grid.py:1173-1175. *)
  Definition mark_node (n : nat) : M unit :=
    b <- gets (fun h => n_border h n) ;;
    if b then ret tt
    else modify (fun h => set_n_border h (upd (n_border h) n true)) ;;;
         modify (fun h => set_g_nborder h (S (g_nborder h))).

  (** Grid.mark_all_fixed_nodes, grid.py:1167-1175.  Simplification: the assignment
      `e.border = True` (1171) is left out, the attribute is never read. *)
  Definition mark_all_fixed_nodes : M unit :=
    es <- gets g_edges ;;
    for_each es (fun e =>
      fs <- gets (fun h => e_faces h e) ;;
      if (length fs =? 1)%nat
      then ns <- gets (fun h => e_nodes h e) ;; for_each ns mark_node
      else ret tt).

  (* ---------------------------------------------------------------- *)
  (** ** Deletion *)

  (** Grid.del_face, grid.py:1179-1198 (faces are compared by identity). *)
  Definition del_face (f : nat) : M unit :=
    ns <- gets (fun h => f_nodes h f) ;;
    for_each ns (fun n => remove_if (fun h => n_faces h n) (put_n_faces n) (Nat.eqb f)) ;;;
    es <- gets (fun h => f_edges h f) ;;
    for_each es (fun e => remove_if (fun h => e_faces h e) (put_e_faces e) (Nat.eqb f)) ;;;
    z <- zone_of f ;;
    zone_remove_face z f ;;;
    remove_from g_faces (fun l => modify (fun h => set_g_faces h l)) (Nat.eqb f).

  (** Grid.del_edge, grid.py:1202-1222 (edges are compared by identity). *)
  Definition del_edge (e : nat) : M unit :=
    ns <- gets (fun h => e_nodes h e) ;;
    a <- item0 ns ;;
    remove_from (fun h => n_edges h a) (put_n_edges a) (Nat.eqb e) ;;;
    b <- item1 ns ;;
    remove_from (fun h => n_edges h b) (put_n_edges b) (Nat.eqb e) ;;;
    fs <- gets (fun h => e_faces h e) ;;
    for_each fs (fun f => remove_from (fun h => f_edges h f) (put_f_edges f) (Nat.eqb e)) ;;;
    zs <- gets g_zones ;;
    for_each zs (fun z => remove_if (fun h => z_edges h z) (put_z_edges z) (Nat.eqb e)) ;;;
    remove_from g_edges (fun l => modify (fun h => set_g_edges h l)) (Nat.eqb e).

  (** `self.RoundedCoordsBag.remove(r)`: KeyError if absent. *)
  Definition bag_remove (r : rc) : M unit :=
    l <- gets g_bag ;;
    match remove1 (rc_eqb r) l with
    | None => raise EKeyError
    | Some l' => modify (fun h => set_g_bag h l')
    end.

  (** `self.RoundedCoordsBag.add(r)`. *)
  Definition bag_add (r : rc) : M unit :=
    modify (fun h => set_g_bag h (if mem (rc_eqb r) (g_bag h) then g_bag h else g_bag h ++ [r])).

  (** `l.remove(n)` on a list of nodes: nodes are compared by rounded coordinates. *)
  Definition remove_node_from (get : heap -> list nat) (put : list nat -> M unit) (n : nat) : M unit := fun h =>
    remove_from get put (is_near h n) h.

  (** `if n in l: l.remove(n)` on a list of nodes. *)
  Definition remove_node_if (get : heap -> list nat) (put : list nat -> M unit) (n : nat) : M unit := fun h =>
    remove_if get put (is_near h n) h.

  (** Grid.del_node, grid.py:1226-1247. *)
  Definition del_node (n : nat) : M unit :=
    es <- gets (fun h => n_edges h n) ;;
    for_each es (fun e => remove_node_if (fun h => e_nodes h e) (put_e_nodes e) n) ;;;
    fs <- gets (fun h => n_faces h n) ;;
    for_each fs (fun f => remove_node_if (fun h => f_nodes h f) (put_f_nodes f) n) ;;;
    fs <- gets (fun h => n_faces h n) ;;
    f <- item0 fs ;;
    z <- zone_of f ;;
    remove_node_from (fun h => z_nodes h z) (put_z_nodes z) n ;;;
    remove_node_from g_nodes (fun l => modify (fun h => set_g_nodes h l)) n ;;;
    r <- gets (fun h => n_rc h n) ;;
    bag_remove r.

  (* ---------------------------------------------------------------- *)
  (** ** Parts of the transformations *)

  (** `Face(list(data.keys()), list(data.values()))` with `data = face.Data.copy()`:
      a new face with an equal dictionary. *)
  Definition copy_face (data : dict str val) : M nat := new_face data.

  (** New node at [p] and its registration, grid.py:1283-1288 (and 1492-1497,
      1679-1684, 1783-1794, 1891-1902). *)
  Definition place_node (z : nat) (p : pt) : M nat :=
    n <- new_node p ;;
    m <- add_node n true ;;
    if Nat.eqb m n then zone_add_node z n ;;; ret n else ret m.

  (** `[i for i in f.Nodes if id(i) != id(a) and id(i) != id(b)][0]`. *)
  Definition third_node (f a b : nat) : M nat :=
    ns <- gets (fun h => f_nodes h f) ;;
    item0 (filter (fun n => negb (Nat.eqb n a) && negb (Nat.eqb n b)) ns).

  (** `[ed for ed in f.Edges for node in ed.Nodes if id(node) == id(n)][0]`. *)
  Definition edge_with (f n : nat) : M nat :=
    es <- gets (fun h => flat_map (fun e =>
      flat_map (fun m => if Nat.eqb m n then [e] else []) (e_nodes h e)) (f_edges h f)) ;;
    item0 es.

  (** The argument of a link call when the edge was looked up: `type(edge) is Edge`
      fails for None. *)
  Definition need (eo : option nat) : M nat :=
    lift (match eo with Some e => Ok e | None => Raise EAssertionError end).

  (* ---------------------------------------------------------------- *)
  (** ** Transformations *)

  (** Grid.divide_face, grid.py:1251-1342.  The edges found by find_edge (1291-1293)
      are used first at 1307-1309; [need] is placed at the calls that use them. *)
  Definition divide_face (face : nat) (p : pt) : M unit :=
    data <- gets (fun h => f_data h face) ;;
    nodes <- gets (fun h => f_nodes h face) ;;
    zo <- gets (fun h => f_zone h face) ;;
    gloid <- gets (fun h => f_glo h face) ;;
    del_face face ;;;
    f1 <- copy_face data ;;
    f2 <- copy_face data ;;
    f3 <- copy_face data ;;
    n1 <- item0 nodes ;;
    n2 <- item1 nodes ;;
    n3 <- item1 (tl nodes) ;;
    zone <- some_zone zo ;;
    n4 <- place_node zone p ;;
    o1 <- gets (fun h => find_edge h n1 n2) ;;
    o2 <- gets (fun h => find_edge h n2 n3) ;;
    o3 <- gets (fun h => find_edge h n1 n3) ;;
    e4 <- new_edge ;;
    e5 <- new_edge ;;
    e6 <- new_edge ;;
    link_node_edge n1 e4 ;;;
    link_node_edge n2 e5 ;;;
    link_node_edge n3 e6 ;;;
    link_node_edge n4 e4 ;;;
    link_node_edge n4 e5 ;;;
    link_node_edge n4 e6 ;;;
    e1 <- need o1 ;; link_edge_face e1 f1 ;;;
    e2 <- need o2 ;; link_edge_face e2 f2 ;;;
    e3 <- need o3 ;; link_edge_face e3 f3 ;;;
    link_edge_face e4 f1 ;;;
    link_edge_face e4 f3 ;;;
    link_edge_face e5 f1 ;;;
    link_edge_face e5 f2 ;;;
    link_edge_face e6 f2 ;;;
    link_edge_face e6 f3 ;;;
    link_node_face n1 f1 ;;;
    link_node_face n1 f3 ;;;
    link_node_face n2 f1 ;;;
    link_node_face n2 f2 ;;;
    link_node_face n3 f2 ;;;
    link_node_face n3 f3 ;;;
    link_node_face n4 f1 ;;;
    link_node_face n4 f2 ;;;
    link_node_face n4 f3 ;;;
    add_face f1 (Some gloid) ;;;
    add_face f2 None ;;;
    add_face f3 None ;;;
    add_edge e4 None ;;;
    add_edge e5 None ;;;
    add_edge e6 None ;;;
    zone_add_face zone f1 ;;;
    zone_add_face zone f2 ;;;
    zone_add_face zone f3 ;;;
    zone_add_edge zone e4 ;;;
    zone_add_edge zone e5 ;;;
    zone_add_edge zone e6.

  (** Edge.len_edge, edge.py:29-40. *)
  Definition len_edge (h : heap) (e : nat) : res val :=
    match e_nodes h e with
    | [a; b] => Ok (vdist (n_p h a) (n_p h b))
    | _ => Raise EAssertionError
    end.

  (** Loop of Face.max_edge_from_face, face.py:164-169. *)
  Fixpoint max_edge_loop (h : heap) (best : nat) (len : val) (es : list nat) : res nat :=
    match es with
    | [] => Ok best
    | e :: r =>
        do l <- len_edge h e;
        if vltb len l then max_edge_loop h e l r else max_edge_loop h best len r
    end.

  (** Face.max_edge_from_face, face.py:155-171. *)
  Definition max_edge_from_face (f : nat) : M nat := fun h =>
    (match f_edges h f with
     | [] => Raise EIndexError
     | e :: r => do l <- len_edge h e; max_edge_loop h e l r
     end, h).

  (** Grid.collapse_face, grid.py:1346-1417. *)
  Definition collapse_face (face : nat) : M bool :=
    data <- gets (fun h => f_data h face) ;;
    gloid1 <- gets (fun h => f_glo h face) ;;
    zo <- gets (fun h => f_zone h face) ;;
    max_edge <- max_edge_from_face face ;;
    fs <- gets (fun h => e_faces h max_edge) ;;
    if (length fs =? 2)%nat then
      del_face face ;;;
      del_edge max_edge ;;;
      fs <- gets (fun h => e_faces h max_edge) ;;
      other_face <- item0 fs ;;
      gloid2 <- gets (fun h => f_glo h other_face) ;;
      del_face other_face ;;;
      f1 <- copy_face data ;;
      f2 <- copy_face data ;;
      ns <- gets (fun h => e_nodes h max_edge) ;;
      n1 <- item0 ns ;;
      n2 <- item1 ns ;;
      n3 <- third_node face n1 n2 ;;
      n4 <- third_node other_face n1 n2 ;;
      remove_from (fun h => f_edges h face) (put_f_edges face) (Nat.eqb max_edge) ;;;
      e1 <- edge_with face n1 ;;
      e2 <- edge_with other_face n1 ;;
      e3 <- edge_with face n2 ;;
      e4 <- edge_with other_face n2 ;;
      e5 <- new_edge ;;
      g <- gets (fun h => e_glo h max_edge) ;;
      add_edge e5 (Some g) ;;;
      link_node_edge n3 e5 ;;;
      link_node_edge n4 e5 ;;;
      link_node_face n1 f1 ;;;
      link_node_face n3 f1 ;;;
      link_node_face n4 f1 ;;;
      link_node_face n2 f2 ;;;
      link_node_face n3 f2 ;;;
      link_node_face n4 f2 ;;;
      link_edge_face e1 f1 ;;;
      link_edge_face e2 f1 ;;;
      link_edge_face e5 f1 ;;;
      link_edge_face e3 f2 ;;;
      link_edge_face e4 f2 ;;;
      link_edge_face e5 f2 ;;;
      zone <- some_zone zo ;;
      zone_add_face zone f1 ;;;
      zone_add_face zone f2 ;;;
      zone_add_edge zone e5 ;;;
      add_face f1 (Some gloid1) ;;;
      add_face f2 (Some gloid2) ;;;
      ret true
    else ret false.

  (** Grid.cut_edge, grid.py:1421-1560. *)
  Definition cut_edge (edge : nat) (p : pt) : M bool :=
    fs <- gets (fun h => e_faces h edge) ;;
    match fs with
    | [f1; f2] =>
        data1 <- gets (fun h => f_data h f1) ;;
        gloid1 <- gets (fun h => f_glo h f1) ;;
        zo <- gets (fun h => f_zone h f1) ;;
        data2 <- gets (fun h => f_data h f2) ;;
        gloid2 <- gets (fun h => f_glo h f2) ;;
        del_face f1 ;;;
        del_face f2 ;;;
        del_edge edge ;;;
        f1_1 <- copy_face data1 ;;
        f1_2 <- copy_face data1 ;;
        f2_1 <- copy_face data2 ;;
        f2_2 <- copy_face data2 ;;
        add_face f1_1 (Some gloid1) ;;;
        add_face f2_1 (Some gloid2) ;;;
        add_face f1_2 None ;;;
        add_face f2_2 None ;;;
        ns <- gets (fun h => e_nodes h edge) ;;
        n1 <- item0 ns ;;
        n2 <- item1 ns ;;
        n3 <- third_node f1 n1 n2 ;;
        n4 <- third_node f2 n1 n2 ;;
        zone <- some_zone zo ;;
        n5 <- place_node zone p ;;
        remove_from (fun h => f_edges h f1) (put_f_edges f1) (Nat.eqb edge) ;;;
        remove_from (fun h => f_edges h f2) (put_f_edges f2) (Nat.eqb edge) ;;;
        e13 <- edge_with f1 n1 ;;
        e23 <- edge_with f1 n2 ;;
        e14 <- edge_with f2 n1 ;;
        e24 <- edge_with f2 n2 ;;
        e15 <- new_edge ;;
        e25 <- new_edge ;;
        e35 <- new_edge ;;
        e45 <- new_edge ;;
        g <- gets (fun h => e_glo h edge) ;;
        add_edge e15 (Some g) ;;;
        add_edge e25 None ;;;
        add_edge e35 None ;;;
        add_edge e45 None ;;;
        link_node_edge n1 e15 ;;;
        link_node_edge n5 e15 ;;;
        link_node_edge n2 e25 ;;;
        link_node_edge n5 e25 ;;;
        link_node_edge n3 e35 ;;;
        link_node_edge n5 e35 ;;;
        link_node_edge n4 e45 ;;;
        link_node_edge n5 e45 ;;;
        link_node_face n5 f1_1 ;;;
        link_node_face n5 f1_2 ;;;
        link_node_face n5 f2_1 ;;;
        link_node_face n5 f2_2 ;;;
        link_node_face n1 f1_2 ;;;
        link_node_face n1 f2_1 ;;;
        link_node_face n2 f1_1 ;;;
        link_node_face n2 f2_2 ;;;
        link_node_face n3 f1_1 ;;;
        link_node_face n3 f1_2 ;;;
        link_node_face n4 f2_1 ;;;
        link_node_face n4 f2_2 ;;;
        link_edge_face e15 f1_2 ;;;
        link_edge_face e15 f2_1 ;;;
        link_edge_face e25 f1_1 ;;;
        link_edge_face e25 f2_2 ;;;
        link_edge_face e35 f1_2 ;;;
        link_edge_face e35 f1_1 ;;;
        link_edge_face e45 f2_2 ;;;
        link_edge_face e45 f2_1 ;;;
        link_edge_face e13 f1_2 ;;;
        link_edge_face e23 f1_1 ;;;
        link_edge_face e14 f2_1 ;;;
        link_edge_face e24 f2_2 ;;;
        zone_add_face zone f1_1 ;;;
        zone_add_face zone f1_2 ;;;
        zone_add_face zone f2_1 ;;;
        zone_add_face zone f2_2 ;;;
        zone_add_edge zone e15 ;;;
        zone_add_edge zone e25 ;;;
        zone_add_edge zone e35 ;;;
        zone_add_edge zone e45 ;;;
        ret true
    | _ => ret false
    end.

  (** Node.replacing_node, node.py:70-89: `n2.replacing_node(n1)`. *)
  Definition replacing_node (self n : nat) : M unit :=
    es <- gets (fun h => n_edges h self) ;;
    l <- gets (fun h => n_edges h n) ;;
    put_n_edges n (l ++ es) ;;;
    fs <- gets (fun h => n_faces h self) ;;
    l <- gets (fun h => n_faces h n) ;;
    put_n_faces n (l ++ fs) ;;;
    es <- gets (fun h => n_edges h self) ;;
    for_each es (fun e =>
      remove_node_from (fun h => e_nodes h e) (put_e_nodes e) self ;;;
      l <- gets (fun h => e_nodes h e) ;;
      put_e_nodes e (l ++ [n])) ;;;
    fs <- gets (fun h => n_faces h self) ;;
    for_each fs (fun f =>
      remove_node_from (fun h => f_nodes h f) (put_f_nodes f) self ;;;
      l <- gets (fun h => f_nodes h f) ;;
      put_f_nodes f (l ++ [n])).

  (** `l[-k]` for k = 1, 2, 3. *)
  Definition item_end (k : nat) (l : list nat) : M nat :=
    lift (match nth_error (rev l) (k - 1) with Some x => Ok x | None => Raise EIndexError end).

  (** Grid.collapse_edge, grid.py:1564-1628. *)
  Definition collapse_edge (edge : nat) : M bool :=
    fs <- gets (fun h => e_faces h edge) ;;
    match fs with
    | [f1; f2] =>
        del_face f1 ;;;
        del_face f2 ;;;
        del_edge edge ;;;
        ns <- gets (fun h => e_nodes h edge) ;;
        n1 <- item0 ns ;;
        n2 <- item1 ns ;;
        p <- gets (fun h => vmid (n_p h n1) (n_p h n2)) ;;
        r <- gets (fun h => n_rc h n1) ;;
        bag_remove r ;;;
        modify (fun h => set_n_p h (upd (n_p h) n1 p)) ;;;
        modify (fun h => set_n_rc h (upd (n_rc h) n1 (rnd p))) ;;;
        bag_add (rnd p) ;;;
        remove_from (fun h => f_edges h f1) (put_f_edges f1) (Nat.eqb edge) ;;;
        e1 <- edge_with f1 n2 ;;
        remove_from (fun h => f_edges h f2) (put_f_edges f2) (Nat.eqb edge) ;;;
        e2 <- edge_with f2 n2 ;;
        fs1 <- gets (fun h => e_faces h e1) ;;
        (match fs1 with
         | [] => ret tt
         | g :: _ => e3 <- edge_with f1 n1 ;; link_edge_face e3 g
         end) ;;;
        fs2 <- gets (fun h => e_faces h e2) ;;
        (match fs2 with
         | [] => ret tt
         | g :: _ => e4 <- edge_with f2 n1 ;; link_edge_face e4 g
         end) ;;;
        del_edge e1 ;;;
        del_edge e2 ;;;
        replacing_node n2 n1 ;;;
        del_node n2 ;;;
        l <- gets g_faces ;;
        x <- item_end 1 l ;; modify (fun h => set_f_glo h (upd (f_glo h) x (f_glo h f1))) ;;;
        x <- item_end 2 l ;; modify (fun h => set_f_glo h (upd (f_glo h) x (f_glo h f2))) ;;;
        l <- gets g_edges ;;
        x <- item_end 1 l ;; modify (fun h => set_e_glo h (upd (e_glo h) x (e_glo h edge))) ;;;
        x <- item_end 2 l ;; modify (fun h => set_e_glo h (upd (e_glo h) x (e_glo h e1))) ;;;
        x <- item_end 3 l ;; modify (fun h => set_e_glo h (upd (e_glo h) x (e_glo h e2))) ;;;
        l <- gets g_nodes ;;
        x <- item_end 1 l ;; modify (fun h => set_n_glo h (upd (n_glo h) x (n_glo h n2))) ;;;
        ret true
    | _ => ret false
    end.

  (** Grid.cut_single_edge, grid.py:1632-1729. *)
  Definition cut_single_edge (edge : nat) (p : pt) : M bool :=
    fs <- gets (fun h => e_faces h edge) ;;
    match fs with
    | [face] =>
        data <- gets (fun h => f_data h face) ;;
        gloid <- gets (fun h => f_glo h face) ;;
        zo <- gets (fun h => f_zone h face) ;;
        del_face face ;;;
        del_edge edge ;;;
        f1 <- copy_face data ;;
        f2 <- copy_face data ;;
        add_face f1 (Some gloid) ;;;
        add_face f2 None ;;;
        ns <- gets (fun h => e_nodes h edge) ;;
        n1 <- item0 ns ;;
        n2 <- item1 ns ;;
        n3 <- third_node face n1 n2 ;;
        zone <- some_zone zo ;;
        n4 <- place_node zone p ;;
        remove_from (fun h => f_edges h face) (put_f_edges face) (Nat.eqb edge) ;;;
        e13 <- edge_with face n1 ;;
        e23 <- edge_with face n2 ;;
        e14 <- new_edge ;;
        e24 <- new_edge ;;
        e34 <- new_edge ;;
        g <- gets (fun h => e_glo h edge) ;;
        add_edge e14 (Some g) ;;;
        add_edge e24 None ;;;
        add_edge e34 None ;;;
        link_node_edge n4 e14 ;;;
        link_node_edge n4 e24 ;;;
        link_node_edge n4 e34 ;;;
        link_node_edge n1 e14 ;;;
        link_node_edge n2 e24 ;;;
        link_node_edge n3 e34 ;;;
        link_node_face n3 f1 ;;;
        link_node_face n3 f2 ;;;
        link_node_face n4 f1 ;;;
        link_node_face n4 f2 ;;;
        link_node_face n1 f1 ;;;
        link_node_face n2 f2 ;;;
        link_edge_face e34 f1 ;;;
        link_edge_face e34 f2 ;;;
        link_edge_face e13 f1 ;;;
        link_edge_face e23 f2 ;;;
        link_edge_face e14 f1 ;;;
        link_edge_face e24 f2 ;;;
        zone_add_face zone f1 ;;;
        zone_add_face zone f2 ;;;
        zone_add_edge zone e14 ;;;
        zone_add_edge zone e24 ;;;
        zone_add_edge zone e34 ;;;
        ret true
    | _ => ret false
    end.

  (** Grid.cut_edge_with_two_nodes, border edge, grid.py:1757-1850. *)
  Definition cut_border_two (edge face : nat) (p1 p2 : pt) : M bool :=
    data <- gets (fun h => f_data h face) ;;
    gloid <- gets (fun h => f_glo h face) ;;
    zo <- gets (fun h => f_zone h face) ;;
    del_face face ;;;
    del_edge edge ;;;
    f1 <- copy_face data ;;
    f2 <- copy_face data ;;
    f3 <- copy_face data ;;
    add_face f1 (Some gloid) ;;;
    add_face f2 None ;;;
    add_face f3 None ;;;
    ns <- gets (fun h => e_nodes h edge) ;;
    n1 <- item0 ns ;;
    n2 <- item1 ns ;;
    n3 <- third_node face n1 n2 ;;
    zone <- some_zone zo ;;
    n4 <- place_node zone p1 ;;
    n5 <- place_node zone p2 ;;
    remove_from (fun h => f_edges h face) (put_f_edges face) (Nat.eqb edge) ;;;
    e13 <- edge_with face n1 ;;
    e23 <- edge_with face n2 ;;
    e14 <- new_edge ;;
    e25 <- new_edge ;;
    e45 <- new_edge ;;
    e34 <- new_edge ;;
    e35 <- new_edge ;;
    g <- gets (fun h => e_glo h edge) ;;
    add_edge e14 (Some g) ;;;
    add_edge e25 None ;;;
    add_edge e45 None ;;;
    add_edge e34 None ;;;
    add_edge e35 None ;;;
    link_node_edge n1 e14 ;;;
    link_node_edge n2 e25 ;;;
    link_node_edge n3 e34 ;;;
    link_node_edge n3 e35 ;;;
    link_node_edge n4 e14 ;;;
    link_node_edge n4 e34 ;;;
    link_node_edge n4 e45 ;;;
    link_node_edge n5 e25 ;;;
    link_node_edge n5 e35 ;;;
    link_node_edge n5 e45 ;;;
    link_node_face n1 f1 ;;;
    link_node_face n2 f3 ;;;
    link_node_face n3 f1 ;;;
    link_node_face n3 f2 ;;;
    link_node_face n3 f3 ;;;
    link_node_face n4 f1 ;;;
    link_node_face n4 f2 ;;;
    link_node_face n5 f2 ;;;
    link_node_face n5 f3 ;;;
    link_edge_face e14 f1 ;;;
    link_edge_face e13 f1 ;;;
    link_edge_face e34 f1 ;;;
    link_edge_face e34 f2 ;;;
    link_edge_face e45 f2 ;;;
    link_edge_face e35 f2 ;;;
    link_edge_face e25 f3 ;;;
    link_edge_face e35 f3 ;;;
    link_edge_face e23 f3 ;;;
    zone_add_face zone f1 ;;;
    zone_add_face zone f2 ;;;
    zone_add_face zone f3 ;;;
    zone_add_edge zone e14 ;;;
    zone_add_edge zone e25 ;;;
    zone_add_edge zone e45 ;;;
    zone_add_edge zone e34 ;;;
    zone_add_edge zone e35 ;;;
    ret true.

  (** Grid.cut_edge_with_two_nodes, edge with two faces, grid.py:1852-1991. *)
  Definition cut_inner_two (edge face1 face2 : nat) (p1 p2 : pt) : M bool :=
    data1 <- gets (fun h => f_data h face1) ;;
    gloid1 <- gets (fun h => f_glo h face1) ;;
    zo <- gets (fun h => f_zone h face1) ;;
    data2 <- gets (fun h => f_data h face2) ;;
    gloid2 <- gets (fun h => f_glo h face2) ;;
    del_face face1 ;;;
    del_face face2 ;;;
    del_edge edge ;;;
    f1 <- copy_face data1 ;;
    f2 <- copy_face data1 ;;
    f3 <- copy_face data1 ;;
    f4 <- copy_face data2 ;;
    f5 <- copy_face data2 ;;
    f6 <- copy_face data2 ;;
    add_face f1 (Some gloid1) ;;;
    add_face f2 (Some gloid2) ;;;
    add_face f3 None ;;;
    add_face f4 None ;;;
    add_face f5 None ;;;
    add_face f6 None ;;;
    ns <- gets (fun h => e_nodes h edge) ;;
    n1 <- item0 ns ;;
    n2 <- item1 ns ;;
    n3 <- third_node face1 n1 n2 ;;
    n6 <- third_node face2 n1 n2 ;;
    zone <- some_zone zo ;;
    n4 <- place_node zone p1 ;;
    n5 <- place_node zone p2 ;;
    remove_from (fun h => f_edges h face1) (put_f_edges face1) (Nat.eqb edge) ;;;
    remove_from (fun h => f_edges h face2) (put_f_edges face2) (Nat.eqb edge) ;;;
    e13 <- edge_with face1 n1 ;;
    e23 <- edge_with face1 n2 ;;
    e16 <- edge_with face2 n1 ;;
    e26 <- edge_with face2 n2 ;;
    e14 <- new_edge ;;
    e25 <- new_edge ;;
    e45 <- new_edge ;;
    e34 <- new_edge ;;
    e35 <- new_edge ;;
    e46 <- new_edge ;;
    e56 <- new_edge ;;
    g <- gets (fun h => e_glo h edge) ;;
    add_edge e14 (Some g) ;;;
    add_edge e25 None ;;;
    add_edge e45 None ;;;
    add_edge e34 None ;;;
    add_edge e35 None ;;;
    add_edge e46 None ;;;
    add_edge e56 None ;;;
    link_node_edge n1 e14 ;;;
    link_node_edge n2 e25 ;;;
    link_node_edge n3 e34 ;;;
    link_node_edge n3 e35 ;;;
    link_node_edge n4 e14 ;;;
    link_node_edge n4 e34 ;;;
    link_node_edge n4 e45 ;;;
    link_node_edge n4 e46 ;;;
    link_node_edge n5 e25 ;;;
    link_node_edge n5 e35 ;;;
    link_node_edge n5 e45 ;;;
    link_node_edge n5 e56 ;;;
    link_node_edge n6 e46 ;;;
    link_node_edge n6 e56 ;;;
    link_node_face n1 f1 ;;;
    link_node_face n1 f4 ;;;
    link_node_face n2 f3 ;;;
    link_node_face n2 f6 ;;;
    link_node_face n3 f1 ;;;
    link_node_face n3 f2 ;;;
    link_node_face n3 f3 ;;;
    link_node_face n4 f1 ;;;
    link_node_face n4 f2 ;;;
    link_node_face n4 f4 ;;;
    link_node_face n4 f5 ;;;
    link_node_face n5 f2 ;;;
    link_node_face n5 f3 ;;;
    link_node_face n5 f5 ;;;
    link_node_face n5 f6 ;;;
    link_node_face n6 f4 ;;;
    link_node_face n6 f5 ;;;
    link_node_face n6 f6 ;;;
    link_edge_face e14 f1 ;;;
    link_edge_face e13 f1 ;;;
    link_edge_face e34 f1 ;;;
    link_edge_face e34 f2 ;;;
    link_edge_face e45 f2 ;;;
    link_edge_face e35 f2 ;;;
    link_edge_face e25 f3 ;;;
    link_edge_face e35 f3 ;;;
    link_edge_face e23 f3 ;;;
    link_edge_face e16 f4 ;;;
    link_edge_face e14 f4 ;;;
    link_edge_face e46 f4 ;;;
    link_edge_face e45 f5 ;;;
    link_edge_face e46 f5 ;;;
    link_edge_face e56 f5 ;;;
    link_edge_face e26 f6 ;;;
    link_edge_face e25 f6 ;;;
    link_edge_face e56 f6 ;;;
    zone_add_face zone f1 ;;;
    zone_add_face zone f2 ;;;
    zone_add_face zone f3 ;;;
    zone_add_face zone f4 ;;;
    zone_add_face zone f5 ;;;
    zone_add_face zone f6 ;;;
    zone_add_edge zone e14 ;;;
    zone_add_edge zone e25 ;;;
    zone_add_edge zone e45 ;;;
    zone_add_edge zone e34 ;;;
    zone_add_edge zone e35 ;;;
    zone_add_edge zone e46 ;;;
    zone_add_edge zone e56 ;;;
    ret true.

  (** Grid.cut_edge_with_two_nodes, grid.py:1733-1996. *)
  Definition cut_edge_with_two_nodes (edge : nat) (p1 p2 : pt) : M bool :=
    fs <- gets (fun h => e_faces h edge) ;;
    match fs with
    | [face] => cut_border_two edge face p1 p2
    | [face1; face2] => cut_inner_two edge face1 face2 p1 p2
    | _ => ret false
    end.
End Atomic.
