(** Model of the grid: linking, breadth-first search and decompositions.
    gsu/grid.py (42-467, 744-1091), gsu/edge.py, gsu/face.py, gsu/zone.py. *)

From Coq Require Import ZArith NArith Ascii String Bool List.
From Verif Require Import Py Heap.
Import ListNotations.
Open Scope list_scope.

Section Grid.
  Context {F : FloatOps}.

  (* ---------------------------------------------------------------- *)
  (** ** Zones and faces *)

  (** Zone.add_node, zone.py:136-147. *)
  Definition zone_add_node (z n : nat) : M unit :=
    modify (fun h => set_z_nodes h (upd (z_nodes h) z (z_nodes h z ++ [n]))).

  (** Zone.add_edge, zone.py:151-162. *)
  Definition zone_add_edge (z e : nat) : M unit :=
    modify (fun h => set_z_edges h (upd (z_edges h) z (z_edges h z ++ [e]))).

  (** `f.Zone = v`. *)
  Definition set_zone (f : nat) (v : option nat) : M unit :=
    modify (fun h => set_f_zone h (upd (f_zone h) f v)).

  (** `z.Faces.remove(f)` (faces are compared by identity). *)
  Definition zone_remove_face (z f : nat) : M unit :=
    fs <- gets (fun h => z_faces h z) ;;
    match remove1 (Nat.eqb f) fs with
    | None => raise EValueError
    | Some fs' => modify (fun h => set_z_faces h (upd (z_faces h) z fs'))
    end.

  (** Face.unlink_from_zone, face.py:109-120. *)
  Definition unlink_from_zone (f : nat) : M unit :=
    zo <- gets (fun h => f_zone h f) ;;
    match zo with
    | None => ret tt
    | Some z => zone_remove_face z f ;;; set_zone f None
    end.

  (** Zone.add_face, zone.py:166-183. *)
  Definition zone_add_face (z f : nat) : M unit :=
    zo <- gets (fun h => f_zone h f) ;;
    (match zo with None => ret tt | Some _ => unlink_from_zone f end) ;;;
    set_zone f (Some z) ;;;
    modify (fun h => set_z_faces h (upd (z_faces h) z (z_faces h z ++ [f]))).

  (* ---------------------------------------------------------------- *)
  (** ** Edges *)

  (** Edge.is_border, edge.py:44-54. *)
  Definition is_border (h : heap) (e : nat) : bool := (length (e_faces h e) =? 1)%nat.

  (** `a == b` on the Zone attribute (None or a zone object). *)
  Definition ozone_eqb (a b : option nat) : bool :=
    match a, b with
    | None, None => true
    | Some x, Some y => Nat.eqb x y
    | _, _ => false
    end.

  (** Edge.is_cross, edge.py:58-76. *)
  Definition is_cross (h : heap) (e : nat) : res bool :=
    match e_faces h e with
    | [_] => Ok false
    | [f0; f1] => Ok (negb (ozone_eqb (f_zone h f0) (f_zone h f1)))
    | _ => Raise EException
    end.

  (** Edge.is_inner, edge.py:80-98. *)
  Definition is_inner (h : heap) (e : nat) : res bool :=
    match e_faces h e with
    | [_] => Ok false
    | [f0; f1] => Ok (ozone_eqb (f_zone h f0) (f_zone h f1))
    | _ => Raise EException
    end.

  (** Edge.is_outer, edge.py:102-111. *)
  Definition is_outer (h : heap) (e : nat) : res bool :=
    do b <- is_inner h e; Ok (negb b).

  (** Edge.is_connect_zones, edge.py:115-131. *)
  Definition is_connect_zones (h : heap) (e z0 z1 : nat) : bool :=
    match e_faces h e with
    | [f0; f1] =>
        let fz0 := f_zone h f0 in
        let fz1 := f_zone h f1 in
        (ozone_eqb (Some z0) fz0 && ozone_eqb (Some z1) fz1)
        || (ozone_eqb (Some z0) fz1 && ozone_eqb (Some z1) fz0)
    | _ => false
    end.

  (** Face.get_neighbour, face.py:83-105. *)
  Definition get_neighbour (h : heap) (f e : nat) : res (option nat) :=
    match e_faces h e with
    | [f0] => if Nat.eqb f0 f then Ok None else Raise EException
    | [f0; f1] => if Nat.eqb f0 f then Ok (Some f1)
                  else if Nat.eqb f1 f then Ok (Some f0)
                  else Raise EException
    | _ => Raise EException
    end.

  (* ---------------------------------------------------------------- *)
  (** ** Collections of the grid *)

  (** Grid.clear, grid.py:42-51. *)
  Definition clear : M unit :=
    modify (fun h => set_g_bag (set_g_zones (set_g_faces (set_g_edges (set_g_nodes h []) []) []) []) []).

  (** Node.is_near / Node.__eq__, node.py:40-66. *)
  Definition is_near (h : heap) (a b : nat) : bool := rc_eqb (n_rc h a) (n_rc h b).

  (** Grid.find_near_node, grid.py:188-204. *)
  Definition find_near_node (n : nat) : M (option nat) := fun h =>
    if mem (rc_eqb (n_rc h n)) (g_bag h)
    then match find (fun m => is_near h m n) (g_nodes h) with
         | Some m => (Ok (Some m), h)
         | None => (Raise EException, h)
         end
    else (Ok None, h).

  (** Grid.add_node, grid.py:208-229. *)
  Definition add_node (n : nat) (merge : bool) : M nat :=
    found <- find_near_node n ;;
    match found, merge with
    | Some m, true => ret m
    | _, _ =>
        modify (fun h => set_n_glo h (upd (n_glo h) n (Z.of_nat (length (g_nodes h))))) ;;;
        modify (fun h => set_g_nodes h (g_nodes h ++ [n])) ;;;
        modify (fun h => set_g_bag h (if mem (rc_eqb (n_rc h n)) (g_bag h)
                                      then g_bag h else g_bag h ++ [n_rc h n])) ;;;
        ret n
    end.

  (** Grid.add_edge, grid.py:233-248. *)
  Definition add_edge (e : nat) (global_id : option Z) : M unit :=
    modify (fun h => set_e_glo h (upd (e_glo h) e
      (match global_id with Some g => g | None => Z.of_nat (length (g_edges h)) end))) ;;;
    modify (fun h => set_g_edges h (g_edges h ++ [e])).

  (** Grid.add_face, grid.py:252-268. *)
  Definition add_face (f : nat) (global_id : option Z) : M unit :=
    modify (fun h => set_f_glo h (upd (f_glo h) f
      (match global_id with Some g => g | None => Z.of_nat (length (g_faces h)) end))) ;;;
    modify (fun h => set_g_faces h (g_faces h ++ [f])).

  (** Loop of Grid.set_zones_ids, grid.py:277-278, from index [i]. *)
  Fixpoint set_zones_ids_from (i : nat) (zs : list nat) : M unit :=
    match zs with
    | [] => ret tt
    | z :: r => modify (fun h => set_z_id h (upd (z_id h) z (Z.of_nat i))) ;;;
                set_zones_ids_from (S i) r
    end.

  (** Grid.set_zones_ids, grid.py:272-278. *)
  Definition set_zones_ids : M unit :=
    zs <- gets g_zones ;; set_zones_ids_from 0 zs.

  (** Grid.reset_zones_ids, grid.py:282-288. *)
  Definition reset_zones_ids : M unit :=
    zs <- gets g_zones ;;
    for_each zs (fun z => modify (fun h => set_z_id h (upd (z_id h) z (-1)%Z))).

  (** Grid.link_node_edge, grid.py:293-305 (the type assertions cannot fail in
      the model). *)
  Definition link_node_edge (n e : nat) : M unit :=
    modify (fun h => set_n_edges h (upd (n_edges h) n (n_edges h n ++ [e]))) ;;;
    modify (fun h => set_e_nodes h (upd (e_nodes h) e (e_nodes h e ++ [n]))).

  (** Grid.link_node_face, grid.py:310-322. *)
  Definition link_node_face (n f : nat) : M unit :=
    modify (fun h => set_n_faces h (upd (n_faces h) n (n_faces h n ++ [f]))) ;;;
    modify (fun h => set_f_nodes h (upd (f_nodes h) f (f_nodes h f ++ [n]))).

  (** Grid.link_edge_face, grid.py:327-346.  (The message of the exception reads
      edge.Nodes[0] and edge.Nodes[1]; the modelled edges have two nodes.) *)
  Definition link_edge_face (e f : nat) : M unit :=
    fs <- gets (fun h => e_faces h e) ;;
    if (length fs =? 2)%nat then raise EException
    else
      modify (fun h => set_e_faces h (upd (e_faces h) e (e_faces h e ++ [f]))) ;;;
      modify (fun h => set_f_edges h (upd (f_edges h) f (f_edges h f ++ [e]))).

  (** Grid.find_edge, grid.py:351-364; `in` compares nodes by rounded coordinates. *)
  Definition find_edge (h : heap) (a b : nat) : option nat :=
    find (fun e => mem (is_near h b) (e_nodes h e)) (n_edges h a).

  (** Grid.complex_link_face_node_node_edge, grid.py:368-390. *)
  Definition complex_link (f a b : nat) : M unit :=
    eo <- gets (fun h => find_edge h a b) ;;
    match eo with
    | None =>
        e <- new_edge ;;
        add_edge e None ;;;
        link_node_edge a e ;;;
        link_node_edge b e ;;;
        link_edge_face e f
    | Some e => link_edge_face e f
    end.

  (* ---------------------------------------------------------------- *)
  (** ** Breadth-first search *)

  (** Reading the attribute `f.bfs_mark`. *)
  Definition get_mark (f : nat) : M bool := fun h =>
    match f_mark h f with Some b => (Ok b, h) | None => (Raise EAttributeError, h) end.

  (** `f.bfs_mark = b`. *)
  Definition set_mark (f : nat) (b : bool) : M unit :=
    modify (fun h => set_f_mark h (upd (f_mark h) f (Some b))).

  (** Loop over the edges of face [f], grid.py:417-422; [p] is the path so far. *)
  Fixpoint bfs_edges (pred : heap -> nat -> bool) (f : nat) (es p : list nat) : M (list nat) :=
    match es with
    | [] => ret p
    | e :: r =>
        b <- gets (fun h => is_border h e) ;;
        if b then bfs_edges pred f r p
        else
          f2o <- (fun h => (get_neighbour h f e, h)) ;;
          match f2o with
          | None => raise EAttributeError
          | Some f2 =>
              m <- get_mark f2 ;;
              ok <- gets (fun h => pred h f2) ;;
              if negb m && ok
              then set_mark f2 true ;;; bfs_edges pred f r (p ++ [f2])
              else bfs_edges pred f r p
          end
    end.

  (** While loop, grid.py:415-423. *)
  Fixpoint bfs_loop (fuel : nat) (pred : heap -> nat -> bool) (p : list nat) (i : nat)
    : M (list nat) :=
    match fuel with
    | O => raise EOutOfFuel
    | S k =>
        match nth_error p i with
        | None => ret p
        | Some f =>
            es <- gets (fun h => f_edges h f) ;;
            p' <- bfs_edges pred f es p ;;
            bfs_loop k pred p' (S i)
        end
    end.

  (** Grid.bfs_path_connectivity_component, grid.py:394-425.  The fuel exceeds
      the number of existing faces. *)
  Definition bfs_component (start : nat) (pred : heap -> nat -> bool) : M (list nat) :=
    m <- get_mark start ;;
    ok <- gets (fun h => pred h start) ;;
    if m || negb ok then ret []
    else
      set_mark start true ;;;
      fuel <- gets (fun h => S (S (next_f h))) ;;
      bfs_loop fuel pred [start] 0.

  (** Loop of Grid.get_no_bfs_mark_face, grid.py:437-441. *)
  Fixpoint no_bfs_mark_in (pred : heap -> nat -> bool) (fs : list nat) : M (option nat) :=
    match fs with
    | [] => ret None
    | f :: r =>
        m <- get_mark f ;;
        ok <- gets (fun h => pred h f) ;;
        if negb m && ok then ret (Some f) else no_bfs_mark_in pred r
    end.

  (** Grid.get_no_bfs_mark_face, grid.py:429-441. *)
  Definition get_no_bfs_mark_face (pred : heap -> nat -> bool) : M (option nat) :=
    fs <- gets g_faces ;; no_bfs_mark_in pred fs.

  (** While loop of Grid.bfs_path, grid.py:463-467. *)
  Fixpoint bfs_path_loop (fuel : nat) (start : nat) (pred : heap -> nat -> bool) (p : list nat)
    : M (list nat) :=
    match fuel with
    | O => raise EOutOfFuel
    | S k =>
        c <- bfs_component start pred ;;
        so <- get_no_bfs_mark_face pred ;;
        match so with
        | None => ret (p ++ c)
        | Some s => bfs_path_loop k s pred (p ++ c)
        end
    end.

  (** Grid.bfs_path, grid.py:445-467. *)
  Definition bfs_path (start : nat) (pred : heap -> nat -> bool) : M (list nat) :=
    fs <- gets g_faces ;;
    for_each fs (fun f => set_mark f false) ;;;
    fuel <- gets (fun h => S (S (length (g_faces h)))) ;;
    bfs_path_loop fuel start pred [].

  (* ---------------------------------------------------------------- *)
  (** ** Linking nodes and edges to zones *)

  (** `[f.Zone.Id for f in fs]`. *)
  Definition zone_ids_of (h : heap) (fs : list nat) : res (list Z) :=
    rmap (fun f => match f_zone h f with
                   | Some z => Ok (z_id h z)
                   | None => Raise EAttributeError
                   end) fs.

  (** Grid.link_nodes_and_edges_to_zones, grid.py:744-768. *)
  Definition link_nodes_and_edges_to_zones : M unit :=
    zs <- gets g_zones ;;
    for_each zs (fun z =>
      modify (fun h => set_z_nodes h (upd (z_nodes h) z [])) ;;;
      modify (fun h => set_z_edges h (upd (z_edges h) z []))) ;;;
    set_zones_ids ;;;
    ns <- gets g_nodes ;;
    for_each ns (fun n =>
      ids <- (fun h => (zone_ids_of h (n_faces h n), h)) ;;
      for_each (distinct Z.eq_dec ids) (fun zid =>
        zs <- gets g_zones ;;
        z <- lift (py_get zs zid) ;;
        zone_add_node z n)) ;;;
    es <- gets g_edges ;;
    for_each es (fun e =>
      ids <- (fun h => (zone_ids_of h (e_faces h e), h)) ;;
      for_each (distinct Z.eq_dec ids) (fun zid =>
        zs <- gets g_zones ;;
        z <- lift (py_get zs zid) ;;
        zone_add_edge z e)) ;;;
    reset_zones_ids.

  (** Grid.unlink_faces_from_zones, grid.py:772-779. *)
  Definition unlink_faces_from_zones : M unit :=
    fs <- gets g_faces ;;
    for_each fs (fun f =>
      zo <- gets (fun h => f_zone h f) ;;
      match zo with
      | None => raise EAttributeError
      | Some z =>
          fx <- gets (fun h => z_fixed h z) ;;
          if fx then ret tt else set_zone f None
      end).

  (** Grid.check_faces_are_linked_to_zones, grid.py:783-790. *)
  Definition check_faces_are_linked_to_zones : M unit :=
    fs <- gets g_faces ;;
    for_each fs (fun f =>
      zo <- gets (fun h => f_zone h f) ;;
      match zo with None => raise EException | Some _ => ret tt end).

  (** Grid.post_decompose, grid.py:794-801. *)
  Definition post_decompose : M unit :=
    link_nodes_and_edges_to_zones ;;;
    check_faces_are_linked_to_zones ;;;
    set_zones_ids.

  (* ---------------------------------------------------------------- *)
  (** ** Decompositions *)

  (** `if new_name is not None: self.Name = new_name`. *)
  Definition rename (new_name : option str) : M unit :=
    match new_name with None => ret tt | Some s => modify (fun h => set_g_name h s) end.

  (** `self.Zones.append(z)`. *)
  Definition append_zone (z : nat) : M unit :=
    modify (fun h => set_g_zones h (g_zones h ++ [z])).

  (** Grid.decompose_mono, grid.py:805-823. *)
  Definition decompose_mono (new_name : option str) : M unit :=
    rename new_name ;;;
    modify (fun h => set_g_zones h []) ;;;
    unlink_faces_from_zones ;;;
    z <- new_zone (lit "mono") ;;
    append_zone z ;;;
    fs <- gets g_faces ;;
    for_each fs (fun f => zone_add_face z f) ;;;
    post_decompose.

  (** `for i in range(count): self.Zones.append(gsu.Zone(prefix + str(i)))`. *)
  Definition create_zones (prefix : str) (count : nat) : M unit :=
    for_each (seq 0 count) (fun i =>
      z <- new_zone (prefix ++ nat_str i) ;; append_zone z).

  (** Loop of Grid.decompose_random over the faces, grid.py:845-846.  [rand k] is
      the raw outcome of call number [k]; `random.randint(0, count - 1)` returns
      [rand k mod count] and raises ValueError for an empty range. *)
  Fixpoint random_faces (rand : nat -> nat) (count k : nat) (fs : list nat) : M unit :=
    match fs with
    | [] => ret tt
    | f :: r =>
        if (count =? 0)%nat then raise EValueError
        else
          zs <- gets g_zones ;;
          z <- lift (py_get zs (Z.of_nat (rand k mod count))) ;;
          zone_add_face z f ;;;
          random_faces rand count (S k) r
    end.

  (** Grid.decompose_random, grid.py:827-848. *)
  Definition decompose_random (rand : nat -> nat) (count : nat) (new_name : option str) : M unit :=
    rename new_name ;;;
    modify (fun h => set_g_zones h []) ;;;
    unlink_faces_from_zones ;;;
    create_zones (lit "random ") count ;;;
    fs <- gets g_faces ;;
    random_faces rand count 0 fs ;;;
    post_decompose.

  (** Loop of Grid.decompose_linear over the zones, grid.py:876-883; returns the
      final cur_face_i. *)
  Fixpoint linear_zones (fcpz fcrm i cur : nat) (zs : list nat) : M nat :=
    match zs with
    | [] => ret cur
    | z :: r =>
        let faces_to_add := if (i <? fcrm)%nat then S fcpz else fcpz in
        for_each (seq cur faces_to_add) (fun j =>
          fs <- gets g_faces ;;
          f <- lift (py_get fs (Z.of_nat j)) ;;
          zone_add_face z f) ;;;
        linear_zones fcpz fcrm (S i) (cur + faces_to_add) r
    end.

  (** Grid.decompose_linear, grid.py:852-887 (count is a natural number;
      negative counts are not modelled). *)
  Definition decompose_linear (count : nat) (new_name : option str) : M unit :=
    rename new_name ;;;
    fc <- gets (fun h => length (g_faces h)) ;;
    if (count =? 0)%nat then raise EZeroDivisionError
    else
      let fcpz := (fc / count)%nat in
      let fcrm := (fc mod count)%nat in
      modify (fun h => set_g_zones h []) ;;;
      unlink_faces_from_zones ;;;
      create_zones (lit "linear ") count ;;;
      zs <- gets g_zones ;;
      cur <- linear_zones fcpz fcrm 0 0 zs ;;
      if (cur =? fc)%nat then post_decompose else raise EException.

  (** Face.get_center, face.py:124-133.  (A face with fewer than three nodes gives
      IndexError in the code; such faces are not consistent and get the zero
      point here.) *)
  Definition get_center (h : heap) (f : nat) : pt :=
    match f_nodes h f with
    | a :: b :: c :: _ => vcen (n_p h a) (n_p h b) (n_p h c)
    | _ => (val0, val0, val0)
    end.

  (** Default sign functions of decompose_hierarchical, grid.py:1004-1006. *)
  Definition axis_signs : list (heap -> nat -> val) :=
    [fun h f => coord 0 (get_center h f); fun h f => coord 1 (get_center h f);
     fun h f => coord 2 (get_center h f)].

  (** Insertion into a sorted list; used by [sort_vals]. *)
  Fixpoint insert_val (x : val) (l : list val) : list val :=
    match l with
    | [] => [x]
    | y :: r => if vltb y x then y :: insert_val x r else x :: l
    end.

  (** `signs.sort()`: any sorting algorithm gives the same list up to values
      that compare equal. *)
  Definition sort_vals (l : list val) : list val := fold_right insert_val [] l.

  (** The middle sign, grid.py:903-905 and 986-988. *)
  Definition blade_of (h : heap) (fn : heap -> nat -> val) (fs : list nat) : res val :=
    let signs := sort_vals (map (fn h) fs) in
    py_get signs (Z.of_nat (length signs / 2)).

  (** Cut edges of one face, grid.py:925-930. *)
  Definition metric_face (h : heap) (zl zr f : nat) : nat :=
    length (filter (fun e =>
      match e_faces h e with
      | [ff; sf] =>
          (ozone_eqb (f_zone h ff) (Some zl) && ozone_eqb (f_zone h sf) (Some zr))
          || (ozone_eqb (f_zone h ff) (Some zr) && ozone_eqb (f_zone h sf) (Some zl))
      | _ => false
      end) (f_edges h f)).

  (** Grid.split_zone_metric, grid.py:891-936; [None] is math.inf. *)
  Definition split_zone_metric (zone zl zr : nat) (fn : heap -> nat -> val) : M (option nat) :=
    fs <- gets (fun h => z_faces h zone) ;;
    blade <- (fun h => (blade_of h fn fs, h)) ;;
    for_each fs (fun f =>
      s <- gets (fun h => fn h f) ;;
      if vltb s blade then set_zone f (Some zl) else set_zone f (Some zr)) ;;;
    counts <- gets (fun h => (length (filter (fun f => vltb (fn h f) blade) fs),
                              length (filter (fun f => negb (vltb (fn h f) blade)) fs))) ;;
    if ((fst counts =? 0) || (snd counts =? 0))%nat then ret None
    else
      r <- gets (fun h => list_sum (map (metric_face h zl zr) fs)) ;;
      for_each fs (fun f => set_zone f (Some zone)) ;;;
      ret (Some r).

  (** `self.Zones.remove(zone)`. *)
  Definition zones_remove (z : nat) : M unit :=
    zs <- gets g_zones ;;
    match remove1 (Nat.eqb z) zs with
    | None => raise EValueError
    | Some zs' => modify (fun h => set_g_zones h zs')
    end.

  (** `a <= b` on metrics. *)
  Definition metric_leb (a b : option nat) : bool :=
    match a, b with
    | Some x, Some y => (x <=? y)%nat
    | _, None => true
    | None, Some _ => false
    end.

  (** `min(metrics)`: ValueError on the empty list. *)
  Fixpoint min_metric (l : list (option nat)) : res (option nat) :=
    match l with
    | [] => Raise EValueError
    | [m] => Ok m
    | m :: r => do b <- min_metric r; Ok (if metric_leb m b then m else b)
    end.

  (** `metrics.index(m)`. *)
  Definition metric_eqb (a b : option nat) : bool := ozone_eqb a b.

  (** Grid.split_zone, grid.py:940-999. *)
  Definition split_zone (zone : nat) (fns : list (heap -> nat -> val)) : M unit :=
    fx <- gets (fun h => z_fixed h zone) ;;
    if (fx : bool) then zones_remove zone ;;; append_zone zone
    else
      fs <- gets (fun h => z_faces h zone) ;;
      if (length fs <? 2)%nat then zones_remove zone ;;; append_zone zone
      else
        name <- gets (fun h => z_name h zone) ;;
        zl <- new_zone (name ++ lit "l") ;;
        zr <- new_zone (name ++ lit "r") ;;
        zones_remove zone ;;;
        append_zone zl ;;;
        append_zone zr ;;;
        metrics <- map_each fns (fun fn => split_zone_metric zone zl zr fn) ;;
        mm <- lift (min_metric metrics) ;;
        match mm with
        | None => zones_remove zone ;;; append_zone zone
        | Some _ =>
            match index_of (metric_eqb mm) metrics with
            | None => raise EValueError
            | Some k =>
                fn <- lift (py_get fns (Z.of_nat k)) ;;
                fs <- gets (fun h => z_faces h zone) ;;
                blade <- (fun h => (blade_of h fn fs, h)) ;;
                l_faces <- gets (fun h => filter (fun f => vltb (fn h f) blade) fs) ;;
                r_faces <- gets (fun h => filter (fun f => negb (vltb (fn h f) blade)) fs) ;;
                for_each l_faces (fun f => zone_add_face zl f) ;;;
                for_each r_faces (fun f => zone_add_face zr f)
            end
        end.

  (** `z.IsFixed = z.Name in names` for all zones, grid.py:1018-1019, 1059-1060. *)
  Definition mark_fixed (names : list str) : M unit :=
    zs <- gets g_zones ;;
    for_each zs (fun z =>
      modify (fun h => set_z_fixed h (upd (z_fixed h) z (mem (str_eqb (z_name h z)) names)))).

  (** `self.Zones = [z for z in self.Zones if z.IsFixed]`, grid.py:1025, 1066. *)
  Definition keep_fixed : M unit :=
    modify (fun h => set_g_zones h (filter (z_fixed h) (g_zones h))).

  (** Grid.decompose_hierarchical, grid.py:1003-1045 (levels is a natural number). *)
  Definition decompose_hierarchical (fns : list (heap -> nat -> val)) (levels : nat)
    (new_name : option str) (fixed : list str) : M unit :=
    mark_fixed fixed ;;;
    rename new_name ;;;
    keep_fixed ;;;
    unlink_faces_from_zones ;;;
    if (levels <? 1)%nat then raise EException
    else
      z <- new_zone (lit "h") ;;
      append_zone z ;;;
      fs <- gets g_faces ;;
      for_each fs (fun f =>
        zo <- gets (fun h => f_zone h f) ;;
        match zo with None => zone_add_face z f | Some _ => ret tt end) ;;;
      for_each (seq 0 (levels - 1)) (fun _ =>
        c <- gets (fun h => length (g_zones h)) ;;
        for_each (seq 0 c) (fun _ =>
          zs <- gets g_zones ;;
          z0 <- lift (py_get zs 0) ;;
          split_zone z0 fns)) ;;;
      post_decompose.

  (** Grid.faces_count_in_fixed_zones, grid.py:110-117. *)
  Definition faces_count_in_fixed_zones (h : heap) : nat :=
    list_sum (map (fun z => length (z_faces h z)) (filter (z_fixed h) (g_zones h))).

  (** Zone is None: the predicate given to bfs_path in grid.py:1085. *)
  Definition zone_is_none (h : heap) (f : nat) : bool :=
    match f_zone h f with None => true | Some _ => false end.

  (** Loop of Grid.decompose_farhat over the new zones, grid.py:1082-1089. *)
  Fixpoint farhat_zones (fc : Z) (count fz_count i : nat) (start : nat) (n : nat) : M unit :=
    match n with
    | O => ret tt
    | S n' =>
        zs <- gets g_zones ;;
        z <- lift (py_get zs (Z.of_nat (i + fz_count))) ;;
        let zone_size := (fc / Z.of_nat count
                          + (if Z.of_nat i <? fc mod Z.of_nat count then 1 else 0))%Z in
        path <- bfs_path start zone_is_none ;;
        for_each (seq 0 (Z.to_nat zone_size)) (fun fi =>
          f <- lift (py_get path (Z.of_nat fi)) ;; zone_add_face z f) ;;;
        start' <- (if (zone_size <? Z.of_nat (length path))%Z
                   then lift (py_get path zone_size) else ret start) ;;
        farhat_zones fc count fz_count (S i) start' n'
    end.

  (** Grid.decompose_farhat, grid.py:1049-1091.  The zone sizes list (1078) is
      computed element by element inside the loop. *)
  Definition decompose_farhat (count : nat) (new_name : option str) (fz_names : list str) : M unit :=
    mark_fixed fz_names ;;;
    rename new_name ;;;
    keep_fixed ;;;
    fz_count <- gets (fun h => length (g_zones h)) ;;
    unlink_faces_from_zones ;;;
    create_zones (lit "farhat ") count ;;;
    fc <- gets (fun h => (Z.of_nat (length (g_faces h)) - Z.of_nat (faces_count_in_fixed_zones h))%Z) ;;
    fs <- gets g_faces ;;
    start <- lift (py_get fs 0) ;;
    farhat_zones fc count fz_count 0 start count ;;;
    post_decompose.
End Grid.
