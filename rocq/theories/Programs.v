(** Models of the programs remesh.py and drops.py as wholes: a grid file is loaded, the
    surface is processed, and the result is stored.

    The grid is the heap of Heap.v with opaque numbers, the processing is done over real
    numbers (Remesh.v, Drops.v).  [real] is the real number that a float stands for,
    [near] is the float that stands for a real number; both are parameters.
    Simplification: the processing is exact and the results are rounded once, when they
    are put back into the grid. *)

From Coq Require Import ZArith Reals Ascii String Bool List.
From Verif Require Import Py Heap GridModel Mpi GridIO Atomic Geom.
From Verif Require Remesh Drops DropsText.
Import ListNotations.
Open Scope list_scope.

Section Programs.
  Context {F : FloatOps}.
  Variables (real : val -> R) (near : R -> val).

  (** Node.P (gsu/node.py:17-36) as a vector of real numbers, and back. *)
  Definition vect_of (p : pt) : vect := match p with (x, y, z) => V3 (real x) (real y) (real z) end.
  Definition pt_of (v : vect) : pt := (near (vx v), near (vy v), near (vz v)).

  (** The nodes of a face, face.py:137-152 (`self.Nodes[0]`, ...).  Simplification: a
      face that does not have three nodes is not represented (load makes no such
      face). *)
  Definition three (l : list nat) : nat * nat * nat := match l with [a; b; c] => (a, b, c) | _ => (0, 0, 0)%nat end.

  (** The grid as the remesher sees it: the links (node.py, edge.py, face.py, grid.py:29-38) ... *)
  Definition topo_of (h : heap) : Remesh.topo :=
    Remesh.Topo (g_nodes h) (g_faces h) (g_edges h) (n_faces h) (fun f => three (f_nodes h f)) (e_faces h).

  (** ... and the fields; those that the remesher sets before it reads them are zeros. *)
  Definition st_of (h : heap) : Remesh.st :=
    let o := fun _ : nat => V3 0 0 0 in
    let z := fun _ : nat => 0%R in
    Remesh.St (fun n => vect_of (n_p h n)) o z o (fun f => real (face_get h f Drops.kHi)) z z z o z z z z.

  (** The new positions of the nodes of the grid, remeshing.py:793-794, and Hi of its faces,
      remeshing.py:387-389, in the objects.  Node.RoundedCoords is not changed by the code
      (node.py:30). *)
  Definition put_moved (s : Remesh.st) (h : heap) : heap :=
    set_f_data
      (set_n_p h (fun n => if in_dec Nat.eq_dec n (g_nodes h) then pt_of (Remesh.n_pos s n) else n_p h n))
      (fun f => if in_dec Nat.eq_dec f (g_faces h) then dset str_dec (f_data h f) Drops.kHi (near (Remesh.f_hi s f)) else f_data h f).

  (** TongRemesher.__call__, remeshing.py:314-389, on the grid; [fix_nodes] is the option
      nss_fix_nodes.  Simplification: the border nodes are marked before the ice fields
      are set (the code does it after); intermediate grids (verbose) are not stored. *)
  Definition remesh_grid (fix_nodes : bool) (o : Remesh.options) : M unit :=
    (if fix_nodes then mark_all_fixed_nodes else ret tt) ;;;
    h <- gets (fun h => h) ;;
    s <- lift (Remesh.remesh o (topo_of h) (st_of h)) ;;
    modify (put_moved s).

  (** One mesh of remesh.py:77-92: the text of the stored file. *)
  Definition remesh_file (fix_nodes : bool) (o : Remesh.options) (text : str) : M str :=
    modify new_grid ;;;
    load true text ;;;
    remesh_grid fix_nodes o ;;;
    h <- gets (fun h => h) ;;
    lift (store h).

  (** A face of the grid as drops.py sees it: Face.get_triangle, face.py:137-152, and Data. *)
  Definition dface_of (h : heap) (f : nat) : Drops.dface :=
    let '(a, b, c) := three (f_nodes h f) in
    Drops.DFace (vect_of (n_p h a)) (vect_of (n_p h b)) (vect_of (n_p h c))
      (map (fun kv => (fst kv, real (snd kv))) (f_data h f)).

  (** The data of faces put back into the grid (drops.py:291-295). *)
  Definition put_data (gs : list Drops.dface) (h : heap) : heap :=
    set_f_data h
      (fold_left (fun m p => upd m (fst p) (map (fun kv => (fst kv, near (snd kv))) (Drops.df_data (snd p))))
         (combine (g_faces h) gs) (f_data h)).

  (** drops, drops.py:231-300: the texts of the stored grid and of the file of
      trajectories; [air] are the lines of the air file, [fl] and [fm] are float(.) and
      str(.) (see DropsText.v).  Simplifications: the air file is read before the
      cloud of triangles is made; nothing is written if an exception is raised. *)
  Definition drops_files (fl : str -> res R) (fm : R -> str) (d dt thr : R) (max_fly_steps : Z) (text : str) (air : list str)
    : M (str * list str) :=
    modify new_grid ;;;
    load true text ;;;
    h <- gets (fun h => h) ;;
    ds <- lift (DropsText.read_air fl (List.length air) air) ;;
    r <- lift (Drops.drops (map (dface_of h) (g_faces h)) ds d dt thr max_fly_steps) ;;
    modify (put_data (fst r)) ;;;
    h' <- gets (fun h => h) ;;
    out <- lift (store h') ;;
    ret (out, DropsText.trajectories_file fm (fun i => f_glo h (nth i (g_faces h) 0%nat)) (snd r)).
End Programs.

(* ---------------------------------------------------------------- *)
(** ** Names of files *)

(** `s.replace(a, b)` for a non-empty [a]: occurrences are looked for from the left and
    do not overlap. *)
Fixpoint replace_from (fuel : nat) (a b s : str) : str :=
  match fuel with
  | O => s
  | S k =>
      match s with
      | [] => []
      | c :: r => if prefixb a s then b ++ replace_from k a b (skipn (List.length a) s) else c :: replace_from k a b r
      end
  end.
Definition replace_all (a b s : str) : str := replace_from (List.length s) a b s.

(** `s[s.rfind('/'):]` if there is a '/', else `s`, remesh.py:83-86. *)
Fixpoint from_last_slash (s : str) : str :=
  match s with
  | [] => []
  | c :: r => if existsb (Ascii.eqb "/"%char) r then from_last_slash r else s
  end.

(** The name of the stored file, remesh.py:83-92. *)
Definition remesh_name (outdir mesh : str) : str :=
  outdir ++ lit "/" ++ replace_all (lit "_r_") (lit "_") (from_last_slash mesh).
