(** Model of droplet flights: drops.py, geom/trajectory.py, and of the methods of
    gsu/grid.py used after the flights.

    Numbers are real numbers (see Geom.v); math.pow(x, y) for positive x is [Rpower].
    Files are not read here: the air field is the list of (point, velocity) pairs that
    read_vel_field_from_file collects, the surface is a list of faces. *)

From Coq Require Import ZArith Reals Bool List String.
From Verif Require Import Py Geom.
Import ListNotations.
Open Scope list_scope.
Open Scope R_scope.

(* ---------------------------------------------------------------- *)
(** ** class Space *)

(** Space, drops.py:17-35: Ds, Bx.  PartitionsTuple holds the coordinates of the points
    of Ds in the same order (drops.py:206-207) and is not kept separately. *)
Record space : Type := Space { s_ds : list (vect * vect); s_bx : box }.

(** Space.__init__, drops.py:24-35. *)
Definition make_space (ds : list (vect * vect)) : res space :=
  do b <- box_of (map fst ds); Ok (Space ds b).

(** np.argmin, drops.py:59: the index of the first of the least values; [best] and [at]
    are the least value so far and its index, [i] is the index of the head. *)
Fixpoint argmin_from (best : R) (at_ i : nat) (l : list R) : nat :=
  match l with
  | [] => at_
  | x :: r => if Rltb x best then argmin_from x i (S i) r else argmin_from best at_ (S i) r
  end.
Definition argmin (l : list R) : res nat :=
  match l with [] => Raise EValueError | x :: r => Ok (argmin_from x 0 1 r) end.

(** Space.find_nearest, drops.py:48-61. *)
Definition find_nearest (s : space) (p : vect) : res (vect * vect) :=
  let distances := map (fun d => vmod (vsub (fst d) p)) (s_ds s) in
  do i <- argmin distances;
  match nth_error (s_ds s) i with Some d => Ok d | None => Raise EIndexError end.

(** Space.inside, drops.py:65-73. *)
Definition inside (s : space) (p : vect) : bool := is_point_inside (s_bx s) p.

(** The constants of fly_step, drops.py:90-92. *)
Definition air_dns : R := 1292 / 1000.
Definition wtr_dns : R := 1000.
Definition air_vis : R := 1736 / 100000000.

(** math.pow(x, y) with 0 < y < 1: ValueError for a negative x, 0 for 0. *)
Definition py_pow (x y : R) : res R :=
  if Rltb x 0 then Raise EValueError else if Reqb x 0 then Ok 0 else Ok (Rpower x y).

(** x / y. *)
Definition py_div (x y : R) : res R := if Reqb y 0 then Raise EZeroDivisionError else Ok (x / y).

(** C_d as a function of the Reynolds number, drops.py:97-100. *)
Definition drag (re : R) : res R :=
  if Rleb re 350 then
    do q <- py_div 24 re;
    do w <- py_pow re (33 / 100);
    Ok (q * (1 + 166 / 1000 * w))
  else
    do w <- py_pow re (217 / 1000);
    Ok (178 / 1000 * w).

(** Space.fly_step, drops.py:77-110. *)
Definition fly_step (p v v_air : vect) (d dt : R) : res (vect * vect) :=
  let vsm := vmod (vsub v v_air) in
  let re := vsm * d / air_vis in
  do cd <- drag re;
  do q <- py_div (cd * air_dns) (d * wtr_dns);
  let a := vmul (vmul (vmul (vsub v_air v) (75 / 100)) q) vsm in
  let new_p := vadd p (vmul v dt) in
  let new_v := vadd v (vmul a dt) in
  Ok (new_p, new_v).

(** The diagnostics of Space.fly, drops.py:126-131. *)
Inductive verdict : Set := VN | VO | VS | VC.

(** Trajectory, trajectory.py:12-31: the list of points.  The checks isinstance(p, Vect)
    are not modelled (points are vectors here).  last_point, trajectory.py:83-90. *)
Definition last_point (tr : list vect) : res vect := py_get tr (-1).

(** The constant 1e-15 of drops.py:163. *)
Definition eps15 : R := / 1000000000000000.

(** The loop of Space.fly, drops.py:138-172.  The second element of the result is the
    BackRef of the triangle (t_ref). *)
Fixpoint fly_loop (fuel : nat) (s : space) (d dt : R) (c : cloud) (max_steps : Z) (tr : list vect) (v : vect)
  : res (verdict * option nat * list vect) :=
  match fuel with
  | O => Raise EOutOfFuel
  | S fuel =>
      do lp <- last_point tr;
      if Z.gtb (Z.of_nat (List.length tr)) max_steps then Ok (VN, None, tr)
      else if negb (inside s lp) then Ok (VO, None, tr)
      else
        do n <- find_nearest s lp;
        do x <- fly_step lp v (snd n) d dt;
        let fp := fst x in
        let v := snd x in
        if is_near_v fp lp eps15 then Ok (VS, None, tr)
        else
          let tr := tr ++ [fp] in
          do h <- first_intersection (Seg lp fp) c;
          match h with
          | Some t => Ok (VC, Some (t_ref t), tr)
          | None => fly_loop fuel s d dt c max_steps tr v
          end
  end.

(** Space.fly, drops.py:114-172; the trajectory starts with one point
    (trajectory.py:19-31). *)
Definition fly (s : space) (p vel : vect) (d dt : R) (c : cloud) (max_steps : Z) : res (verdict * option nat * list vect) :=
  fly_loop (S (Z.to_nat max_steps)) s d dt c max_steps [p] vel.

(* ---------------------------------------------------------------- *)
(** ** Faces *)

(** A face for drops: its triangle (Face.get_triangle, face.py:137-152, where BackRef is
    the face: [t_ref] is the place of the face in Grid.Faces) and its Data (face.py:30). *)
Record dface : Type := DFace { df_a : vect; df_b : vect; df_c : vect; df_data : dict str R }.

(** Face.get_triangle, face.py:137-152. *)
Definition get_triangle (f : dface) (i : nat) : triangle := Tri (df_a f) (df_b f) (df_c f) i.

(** Grid.get_triangles_list, grid.py:121-128. *)
Fixpoint triangles_from (i : nat) (l : list dface) : list triangle :=
  match l with [] => [] | f :: r => get_triangle f i :: triangles_from (S i) r end.
Definition get_triangles_list (l : list dface) : list triangle := triangles_from 0 l.

(** Face.__getitem__, face.py:41-49. *)
Definition getitem (f : dface) (k : str) : R := match dget str_dec (df_data f) k with Some x => x | None => 0 end.

(** Face.__setitem__, face.py:53-61. *)
Definition setitem (f : dface) (k : str) (x : R) : dface :=
  DFace (df_a f) (df_b f) (df_c f) (dset str_dec (df_data f) k x).

(** Names of data fields. *)
Definition kStall : str := lit "Stall".
Definition kStallD : str := lit "StallD".
Definition kStallVX : str := lit "StallVX".
Definition kStallVY : str := lit "StallVY".
Definition kStallVZ : str := lit "StallVZ".
Definition kMImp2 : str := lit "MImp2".
Definition kT : str := lit "T".
Definition kHw : str := lit "Hw".
Definition kHi : str := lit "Hi".

(** The keys removed by convert_grid_stall_to_check_point, grid.py:594. *)
Definition stall_keys : list str := [kStall; kStallD; kStallVX; kStallVY; kStallVZ].

(** f.Data.pop(d), grid.py:595. *)
Fixpoint pop_all (ks : list str) (d : dict str R) : res (dict str R) :=
  match ks with
  | [] => Ok d
  | k :: r => match dpop str_dec d k with Some d' => pop_all r d' | None => Raise EKeyError end
  end.

(** Grid.convert_grid_stall_to_check_point, grid.py:587-596. *)
Definition convert_grid_stall_to_check_point (l : list dface) : res (list dface) :=
  rmap (fun f => do d <- pop_all stall_keys (df_data f); Ok (DFace (df_a f) (df_b f) (df_c f) d)) l.

(** Grid.clean_t_hw_hi, grid.py:600-608. *)
Definition clean_t_hw_hi (l : list dface) : list dface :=
  map (fun f => setitem (setitem (setitem f kT 0) kHw 0) kHi 0) l.

(* ---------------------------------------------------------------- *)
(** ** drops *)

(** The flight from one face, drops.py:273-281: start point, velocity, diameter. *)
Definition flight (air : space) (c : cloud) (d dt : R) (max_steps : Z) (f : dface) (i : nat)
  : res (verdict * option nat * list vect) :=
  let tri := get_triangle f i in
  do n <- normal_orth tri;
  let start_point := vadd (centroid tri) (vmul n d) in
  fly air start_point (V3 (getitem f kStallVX) (getitem f kStallVY) (getitem f kStallVZ)) (getitem f kStallD) dt c max_steps.

(** The body of the loop over faces, drops.py:270-291, without the texts printed.  The
    state is the list of faces and the trajectories dumped so far (with the places of
    their faces).  [res[1]] is None only if the verdict is not 'C'. *)
Definition drops_face (air : space) (c : cloud) (d dt thr : R) (max_steps : Z)
           (st : list dface * list (nat * list vect)) (i : nat) : res (list dface * list (nat * list vect)) :=
  let (fs, trs) := st in
  match nth_error fs i with
  | None => Raise EIndexError
  | Some f =>
      let stall_value := getitem f kStall in
      if Rltb thr stall_value then
        do r <- flight air c d dt max_steps f i;
        let trs := trs ++ [(i, snd r)] in
        match fst r with
        | (VC, Some j) =>
            match nth_error fs j with
            | None => Raise EIndexError
            | Some g =>
                do q <- py_div stall_value (area (get_triangle g j));
                Ok (list_set fs j (setitem g kMImp2 q), trs)
            end
        | _ => Ok (fs, trs)
        end
      else Ok (fs, trs)
  end.

(** for f in g.Faces, drops.py:269-291. *)
Fixpoint drops_loop (air : space) (c : cloud) (d dt thr : R) (max_steps : Z) (is : list nat)
         (st : list dface * list (nat * list vect)) : res (list dface * list (nat * list vect)) :=
  match is with
  | [] => Ok st
  | i :: r => do st' <- drops_face air c d dt thr max_steps st i; drops_loop air c d dt thr max_steps r st'
  end.

(** drops, drops.py:231-300, between reading and writing of files: the faces that are
    stored and the trajectories that are dumped. *)
Definition drops (fs : list dface) (ds : list (vect * vect)) (d dt thr : R) (max_steps : Z)
  : res (list dface * list (nat * list vect)) :=
  do c <- triangles_cloud (get_triangles_list fs);
  do air <- make_space ds;
  do st <- drops_loop air c d dt thr max_steps (seq 0 (List.length fs)) (fs, []);
  do gs <- convert_grid_stall_to_check_point (fst st);
  Ok (clean_t_hw_hi gs, snd st).
