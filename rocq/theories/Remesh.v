(** Model of remeshing.py (TongRemesher) and of moving nodes in smoothing.py, over
    exact real numbers.

    Remeshing does not change which nodes, edges and faces the grid has and how they
    are linked, so this part of the grid is a constant [topo]; the fields of nodes and
    faces that remeshing reads and writes form the state.  Simplifications: real
    numbers instead of floats; a face has exactly three nodes; attributes of objects
    are total functions (the code sets every attribute before it reads it); printing,
    time measurement and storing of intermediate grids (verbose) are left out; the
    state reached at an exception is dropped; the border marks set by
    mark_all_fixed_nodes are in Atomic.v. *)

From Coq Require Import ZArith Reals Bool List.
From Verif Require Import Py Geom.
Import ListNotations.
Open Scope R_scope.

(** Links between objects of the grid that are used: grid.Nodes, grid.Faces,
    grid.Edges (grid.py:29-38), node.Faces, face.Nodes, edge.Faces. *)
Record topo : Type := Topo {
  nodes : list nat;
  faces : list nat;
  edges : list nat;
  n_faces : nat -> list nat;
  f_nodes : nat -> nat * nat * nat;
  e_faces : nat -> list nat
}.

(** Fields of nodes: P, ice_dir, ice_shift, shift; fields of faces: Data['Hi'],
    target_ice, rest_ice, actual_ice, ice_dir, ice_chunk, loc_ice_chunk, ice_shift,
    saved_area. *)
Record st : Type := St {
  n_pos : nat -> vect;
  n_dir : nat -> vect;
  n_height : nat -> R;
  n_move : nat -> vect;
  f_hi : nat -> R;
  f_target : nat -> R;
  f_rest : nat -> R;
  f_actual : nat -> R;
  f_dir : nat -> vect;
  f_chunk : nat -> R;
  f_loc : nat -> R;
  f_height : nat -> R;
  f_saved : nat -> R
}.

(** Assignment to an attribute of one object. *)
Definition put {A} (f : nat -> A) (k : nat) (v : A) : nat -> A := fun i => if Nat.eqb i k then v else f i.

Definition w_pos (s : st) (v : nat -> vect) : st := St v (n_dir s) (n_height s) (n_move s) (f_hi s) (f_target s) (f_rest s) (f_actual s) (f_dir s) (f_chunk s) (f_loc s) (f_height s) (f_saved s).
Definition w_ndir (s : st) (v : nat -> vect) : st := St (n_pos s) v (n_height s) (n_move s) (f_hi s) (f_target s) (f_rest s) (f_actual s) (f_dir s) (f_chunk s) (f_loc s) (f_height s) (f_saved s).
Definition w_nheight (s : st) (v : nat -> R) : st := St (n_pos s) (n_dir s) v (n_move s) (f_hi s) (f_target s) (f_rest s) (f_actual s) (f_dir s) (f_chunk s) (f_loc s) (f_height s) (f_saved s).
Definition w_move (s : st) (v : nat -> vect) : st := St (n_pos s) (n_dir s) (n_height s) v (f_hi s) (f_target s) (f_rest s) (f_actual s) (f_dir s) (f_chunk s) (f_loc s) (f_height s) (f_saved s).
Definition w_hi (s : st) (v : nat -> R) : st := St (n_pos s) (n_dir s) (n_height s) (n_move s) v (f_target s) (f_rest s) (f_actual s) (f_dir s) (f_chunk s) (f_loc s) (f_height s) (f_saved s).
Definition w_target (s : st) (v : nat -> R) : st := St (n_pos s) (n_dir s) (n_height s) (n_move s) (f_hi s) v (f_rest s) (f_actual s) (f_dir s) (f_chunk s) (f_loc s) (f_height s) (f_saved s).
Definition w_rest (s : st) (v : nat -> R) : st := St (n_pos s) (n_dir s) (n_height s) (n_move s) (f_hi s) (f_target s) v (f_actual s) (f_dir s) (f_chunk s) (f_loc s) (f_height s) (f_saved s).
Definition w_actual (s : st) (v : nat -> R) : st := St (n_pos s) (n_dir s) (n_height s) (n_move s) (f_hi s) (f_target s) (f_rest s) v (f_dir s) (f_chunk s) (f_loc s) (f_height s) (f_saved s).
Definition w_fdir (s : st) (v : nat -> vect) : st := St (n_pos s) (n_dir s) (n_height s) (n_move s) (f_hi s) (f_target s) (f_rest s) (f_actual s) v (f_chunk s) (f_loc s) (f_height s) (f_saved s).
Definition w_chunk (s : st) (v : nat -> R) : st := St (n_pos s) (n_dir s) (n_height s) (n_move s) (f_hi s) (f_target s) (f_rest s) (f_actual s) (f_dir s) v (f_loc s) (f_height s) (f_saved s).
Definition w_loc (s : st) (v : nat -> R) : st := St (n_pos s) (n_dir s) (n_height s) (n_move s) (f_hi s) (f_target s) (f_rest s) (f_actual s) (f_dir s) (f_chunk s) v (f_height s) (f_saved s).
Definition w_height (s : st) (v : nat -> R) : st := St (n_pos s) (n_dir s) (n_height s) (n_move s) (f_hi s) (f_target s) (f_rest s) (f_actual s) (f_dir s) (f_chunk s) (f_loc s) v (f_saved s).
Definition w_saved (s : st) (v : nat -> R) : st := St (n_pos s) (n_dir s) (n_height s) (n_move s) (f_hi s) (f_target s) (f_rest s) (f_actual s) (f_dir s) (f_chunk s) (f_loc s) (f_height s) v.

(** A for loop. *)
Fixpoint loop {A} (l : list A) (body : A -> st -> res st) (s : st) : res st :=
  match l with
  | [] => Ok s
  | x :: r => do s' <- body x s; loop r body s'
  end.

(** `for _ in range(n)`. *)
Fixpoint repeated (n : nat) (body : st -> res st) (s : st) : res st :=
  match n with
  | O => Ok s
  | S k => do s' <- body s; repeated k body s'
  end.

(** Division of floats. *)
Definition rdiv (x y : R) : res R := if Reqb y 0 then Raise EZeroDivisionError else Ok (x / y).

(** sum(l). *)
Definition rsum (l : list R) : R := fold_left Rplus l 0.

(** int(x): rounding towards zero. *)
Definition trunc (x : R) : Z := if Rleb 0 x then Int_part x else (- Int_part (- x))%Z.

(** face.get_triangle(), face.py:137-152. *)
Definition get_triangle (g : topo) (s : st) (f : nat) : triangle :=
  let '(a, b, c) := f_nodes g f in Tri (n_pos s a) (n_pos s b) (n_pos s c) f.

(** zipwith, remeshing.py:22-40. *)
Definition zipwith {A B C} (a : list A) (b : list B) (f : A -> B -> C) : list C :=
  map (fun p => f (fst p) (snd p)) (combine a b).

(** wsum, remeshing.py:45-59. *)
Definition wsum (a : list vect) (w : list R) : res vect :=
  vdivr (fold_left vadd (zipwith a w vmul) (V3 0 0 0)) (rsum w).

(** Options of the remesher, remeshing.py:168-190 (numbers of steps are integers). *)
Record options : Type := Opt {
  nsteps_min : Z;
  nsteps_max : Z;
  nsteps_hi_side_fact : R;
  nsteps_ignore_part : R;
  nsmooth_steps : Z;
  nsmooth_s : R;
  nsmooth_k : R;
  hsmooth_steps : Z;
  hsmooth_alfa : R;
  hsmooth_beta : R;
  rest_volume_redistr : bool;
  nss_steps : Z;
  pseudo_2d_oz : bool
}.

(** set_default_options, remeshing.py:168-190. *)
Definition default_options : options :=
  Opt 0 10 (1 / 10) (5 / 100) 0 10 (15 / 100) 0 (2 / 10) (1 / 10) true 0 false.

(** list.sort() of integers. *)
Fixpoint zinsert (x : Z) (l : list Z) : list Z :=
  match l with
  | [] => [x]
  | y :: r => if Z.leb x y then x :: l else y :: zinsert x r
  end.
Definition zsort (l : list Z) : list Z := fold_right zinsert [] l.

(** One element of the list lna, remeshing.py:443. *)
Definition local_nsteps (o : options) (g : topo) (s : st) (f : nat) : res Z :=
  do q <- rdiv (f_hi s f) (min_side (get_triangle g s f) * nsteps_hi_side_fact o);
  Ok (trunc q + 1)%Z.

(** The loop at remeshing.py:469-475. *)
Fixpoint first_fit (mx : Z) (l : list Z) : option Z :=
  match l with
  | [] => None
  | x :: r => if Z.leb x mx then Some x else first_fit mx r
  end.

(** calculate_nsteps, remeshing.py:423-484. *)
Definition calculate_nsteps (o : options) (g : topo) (s : st) : res Z :=
  if Z.ltb (nsteps_max o) (nsteps_min o) then Raise EException else
  do l <- rmap (local_nsteps o g s) (faces g);
  let lna := rev (zsort l) in
  let may_ignore := trunc (INR (length lna) * nsteps_ignore_part o) in
  do x <- py_get lna may_ignore;
  let nsteps :=
    if Z.ltb (nsteps_max o) x then nsteps_max o
    else match first_fit (nsteps_max o) (firstn (Z.to_nat may_ignore) lna) with
         | Some y => y
         | None => nsteps_max o
         end in
  Ok (if Z.ltb nsteps (nsteps_min o) then nsteps_min o else nsteps).

(** clusterize_nodes_for_pseudo_2d_oz, remeshing.py:488-518.  A Vect has no attribute
    x (line 498), so the first node raises; without nodes `vs[0]` (line 507) raises. *)
Definition clusterize_nodes (g : topo) : res unit :=
  match nodes g with [] => Raise EIndexError | _ => Raise EAttributeError end.

(** calc_ice_chunks, remeshing.py:532-546. *)
Definition calc_ice_chunks (g : topo) (rest_iterations : Z) (s : st) : res st :=
  loop (faces g) (fun f s =>
    do c <- rdiv (f_rest s f) (IZR rest_iterations);
    Ok (w_chunk s (put (f_chunk s) f c))) s.

(** null_space_smoothing, remeshing.py:550-557 with smoothing.py:123-125, 193-198:
    the constructor asserts that the grid is not empty; each iteration reads the
    attribute `faces` of the first node, which a Node does not have. *)
Definition null_space_smoothing (o : options) (g : topo) (s : st) : res st :=
  match nodes g, faces g, edges g with
  | _ :: _, _ :: _, _ :: _ => if Z.ltb 0 (nss_steps o) then Raise EAttributeError else Ok s
  | _, _, _ => Raise EAssertionError
  end.

(** remember_current_areas, remeshing.py:559-562. *)
Definition remember_current_areas (g : topo) (s : st) : res st :=
  loop (faces g) (fun f s => Ok (w_saved s (put (f_saved s) f (area (get_triangle g s f))))) s.

(** correction_by_area, remeshing.py:564-571. *)
Definition correction_by_area (g : topo) (s : st) : res st :=
  loop (faces g) (fun f s =>
    if Reqb (f_saved s f) 0 then Raise EAssertionError
    else Ok (w_rest s (put (f_rest s) f (f_rest s f * area (get_triangle g s f) / f_saved s f)))) s.

(** init_ice_dirs, remeshing.py:626-639. *)
Definition init_ice_dirs (g : topo) (s : st) : res st :=
  do s <- loop (faces g) (fun f s =>
            do n <- normal_orth (get_triangle g s f);
            Ok (w_fdir s (put (f_dir s) f n))) s;
  loop (nodes g) (fun n s =>
    do d <- orth (fold_left vadd (map (f_dir s) (n_faces g n)) (V3 0 0 0));
    Ok (w_ndir s (put (n_dir s) n d))) s.

(** The nodes of a face. *)
Definition corners (g : topo) (f : nat) : list nat := let '(a, b, c) := f_nodes g f in [a; b; c].

(** normals_smoothing, remeshing.py:643-662. *)
Definition normals_smoothing (o : options) (g : topo) (s : st) : res st :=
  repeated (Z.to_nat (nsmooth_steps o)) (fun s =>
    do s <- loop (faces g) (fun f s =>
              let ws := map (fun n => Rmax (nsmooth_s o * (1 - dot (f_dir s f) (n_dir s n))) (nsmooth_k o)) (corners g f) in
              do d <- wsum (map (n_dir s) (corners g f)) ws;
              Ok (w_fdir s (put (f_dir s) f d))) s;
    loop (nodes g) (fun n s =>
      do ws <- rmap (fun f => rdiv 1 (area (get_triangle g s f))) (n_faces g n);
      do d <- wsum (map (f_dir s) (n_faces g n)) ws;
      Ok (w_ndir s (put (n_dir s) n d))) s) s.

(** The choice among the roots, remeshing.py:697-707; [None] if the formula is not
    used and the classic value stays. *)
Definition quadratic_shift (a b v : R) : option R :=
  if Rltb eps10 (Rabs b) then
    let d := a * a + 4 * b * v in
    if Rleb 0 d then
      let d := sqrt d in
      let h1 := (- a + d) / (2 * b) in
      let h2 := (- a - d) / (2 * b) in
      if Rleb 0 h1 && Rleb 0 h2 then Some (Rmin h1 h2)
      else if Rleb 0 h1 then Some h1
      else if Rleb 0 h2 then Some h2
      else None
    else None
  else None.

(** define_ice_shifts for one face, remeshing.py:684-707: the value that ice_shift has in
    the end (the code first writes the classic value and may overwrite it). *)
Definition face_shift (g : topo) (s : st) (f : nat) : res R :=
  do h <- rdiv (f_chunk s f) (area (get_triangle g s f));
  if Rltb eps10 (f_chunk s f) then
    let '(n1, n2, n3) := f_nodes g f in
    do n <- normal_orth (get_triangle g s f);
    do ab <- prizmatoid_volume_coefs (n_pos s n1) (n_pos s n2) (n_pos s n3) (n_dir s n1) (n_dir s n2) (n_dir s n3) n;
    match quadratic_shift (fst ab) (snd ab) (f_chunk s f) with
    | Some h' => Ok h'
    | None => Ok h
    end
  else Ok h.

(** define_ice_shifts for one node, remeshing.py:711-713; statistics.mean of nothing
    raises StatisticsError, which is a ValueError. *)
Definition node_shift (g : topo) (s : st) (n : nat) : res R :=
  match n_faces g n with
  | [] => Raise EValueError
  | fs =>
      let h := rsum (map (f_height s) fs) / INR (length fs) in
      if Rltb h 0 then Raise EException else Ok h
  end.

(** define_ice_shifts, remeshing.py:666-713. *)
Definition define_ice_shifts (g : topo) (s : st) : res st :=
  do s <- loop (faces g) (fun f s => do h <- face_shift g s f; Ok (w_height s (put (f_height s) f h))) s;
  loop (nodes g) (fun n s => do h <- node_shift g s n; Ok (w_nheight s (put (n_height s) n h))) s.

(** The exchange over one edge, remeshing.py:735-752. *)
Definition exchange_edge (o : options) (g : topo) (max_h : R) (e : nat) (s : st) : res st :=
  match e_faces g e with
  | [f1; f2] =>
      let '(f1, f2) := if Rltb (f_height s f1) (f_height s f2) then (f2, f1) else (f1, f2) in
      do mid_area <-
        (if Reqb (f_height s f1) 0 then Ok (area (get_triangle g s f1))
         else rdiv (f_chunk s f1) (f_height s f1));
      let delta_v := Rmin (f_height s f1 - f_height s f2) (hsmooth_alfa o * max_h) * mid_area in
      let s := w_loc s (put (f_loc s) f1 (f_loc s f1 - hsmooth_beta o * delta_v)) in
      Ok (w_loc s (put (f_loc s) f2 (f_loc s f2 + hsmooth_beta o * delta_v)))
  | _ => Ok s
  end.

(** The body of the loop of heights_smoothing, remeshing.py:726-759. *)
Definition smoothing_iteration (o : options) (g : topo) (s : st) : res st :=
  do s <- loop (faces g) (fun f s => Ok (w_loc s (put (f_loc s) f (f_chunk s f)))) s;
  do max_h <- py_max (map (f_height s) (faces g));
  do s <- loop (edges g) (exchange_edge o g max_h) s;
  do s <- loop (faces g) (fun f s => Ok (w_chunk s (put (f_chunk s) f (f_loc s f)))) s;
  define_ice_shifts g s.

(** heights_smoothing, remeshing.py:717-759. *)
Definition heights_smoothing (o : options) (g : topo) (s : st) : res st :=
  repeated (Z.to_nat (hsmooth_steps o)) (smoothing_iteration o g) s.

(** The loop over faces in move_nodes, remeshing.py:774-790. *)
Definition accrete (o : options) (g : topo) (f : nat) (s : st) : res st :=
  let '(n1, n2, n3) := f_nodes g f in
  let p1 := n_pos s n1 in let p2 := n_pos s n2 in let p3 := n_pos s n3 in
  let v := displaced_triangle_volume p1 p2 p3 (vadd p1 (n_move s n1)) (vadd p2 (n_move s n2)) (vadd p3 (n_move s n3)) in
  let s :=
    if rest_volume_redistr o then
      let r := f_rest s f - v in
      w_rest s (put (f_rest s) f (if Rltb r 0 then 0 else r))
    else s in
  Ok (w_actual s (put (f_actual s) f (f_actual s f + v))).

(** move_nodes, remeshing.py:763-794. *)
Definition move_nodes (o : options) (g : topo) (s : st) : res st :=
  do s <- loop (nodes g) (fun n s => Ok (w_move s (put (n_move s) n (vmul (n_dir s n) (n_height s n))))) s;
  do s <- loop (faces g) (accrete o g) s;
  loop (nodes g) (fun n s => Ok (w_pos s (put (n_pos s) n (vadd (n_pos s n) (n_move s n))))) s.

(** remesh_step, remeshing.py:575-606 (the pseudo 2d correction is never reached,
    see [clusterize_nodes]). *)
Definition remesh_step (o : options) (g : topo) (s : st) : res st :=
  do s <- init_ice_dirs g s;
  do s <- normals_smoothing o g s;
  do s <- define_ice_shifts g s;
  do s <- heights_smoothing o g s;
  do s <- move_nodes o g s;
  do s <- remember_current_areas g s;
  do s <- null_space_smoothing o g s;
  correction_by_area g s.

(** The loop over steps, remeshing.py:355-359: `calc_ice_chunks(nsteps - i)`, with the
    number of steps that remain. *)
Fixpoint steps (o : options) (g : topo) (remain : nat) (s : st) : res st :=
  match remain with
  | O => Ok s
  | S k =>
      do s <- calc_ice_chunks g (Z.of_nat remain) s;
      do s <- remesh_step o g s;
      steps o g k s
  end.

(** The ice fields of faces at the start, remeshing.py:327-336. *)
Definition plan_ice (g : topo) (s : st) : res st :=
  loop (faces g) (fun f s =>
    let s := w_target s (put (f_target s) f (area (get_triangle g s f) * f_hi s f)) in
    let s := w_rest s (put (f_rest s) f (f_target s f)) in
    Ok (w_actual s (put (f_actual s) f 0))) s.

(** TongRemesher.__call__, remeshing.py:314-389. *)
Definition remesh (o : options) (g : topo) (s : st) : res st :=
  do s <- plan_ice g s;
  do nsteps <- calculate_nsteps o g s;
  do _ <- (if pseudo_2d_oz o then clusterize_nodes g else Ok tt);
  do s <- steps o g (Z.to_nat nsteps) s;
  loop (faces g) (fun f s => Ok (w_hi s (put (f_hi s) f 0))) s.

(* ---------------------------------------------------------------- *)
(** ** smoothing.py *)

(** Smoothing.move_node, smoothing.py:50-66; [border] is the attribute of the node. *)
Definition move_node (fix_boundary_nodes : bool) (border : nat -> bool) (n : nat) (shift : vect) (s : st) : st :=
  if fix_boundary_nodes then
    if border n then s else w_pos s (put (n_pos s) n (vadd (n_pos s n) shift))
  else w_pos s (put (n_pos s) n (vadd (n_pos s n) shift)).

(** Smoothing.apply_shifts, smoothing.py:84-94. *)
Definition apply_shifts (fix_boundary_nodes : bool) (border : nat -> bool) (g : topo) (shifts : list vect) (s : st) : res st :=
  if negb (Nat.eqb (length (nodes g)) (length shifts)) then Raise EAssertionError
  else loop (combine (nodes g) shifts) (fun p s => Ok (move_node fix_boundary_nodes border (fst p) (snd p) s)) s.
