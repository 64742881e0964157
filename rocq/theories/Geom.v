(** Model of the geometry classes: geom/vect.py, geom/segment.py, geom/box.py,
    geom/triangle.py, geom/triangles_cloud.py, geom/utils.py.

    Numbers are real numbers: rounding errors of floating point operations are not
    modelled (the explicit calls of round and all tolerances are). *)

From Coq Require Import Reals Bool List.
From Verif Require Import Py.
Import ListNotations.
Open Scope R_scope.

(** Comparisons of floats. *)
Definition Rltb (x y : R) : bool := if Rlt_dec x y then true else false.
Definition Rleb (x y : R) : bool := if Rle_dec x y then true else false.
Definition Reqb (x y : R) : bool := if Req_EM_T x y then true else false.

(** The tolerance 1.0e-10 and the relative tolerance 1.0e-09 of math.isclose. *)
Definition eps10 : R := / 10000000000.
Definition eps9 : R := / 1000000000.

(** math.isclose(x, y) with default arguments, for finite numbers. *)
Definition isclose (x y : R) : bool := Rleb (Rabs (x - y)) (eps9 * Rmax (Rabs x) (Rabs y)).

(** round(x, 10): a nearest multiple of 1e-10, the even one of two.
    (Simplification: the result is the exact multiple.) *)
Definition round10 (x : R) : R :=
  let y := x * 10000000000 in
  let f := Int_part y in
  let d := y - IZR f in
  let z := if Rltb d (/ 2) then f else if Rltb (/ 2) d then (f + 1)%Z else if Z.even f then f else (f + 1)%Z in
  IZR z / 10000000000.

(* ---------------------------------------------------------------- *)
(** ** geom/vect.py *)

(** Vect, vect.py:11-27. *)
Record vect : Type := V3 { vx : R; vy : R; vz : R }.

(** vect.py:110-118 (indices 0, 1, 2 only are used). *)
Definition coord (v : vect) (i : nat) : R := match i with 0%nat => vx v | 1%nat => vy v | _ => vz v end.

(** vect.py:204-212, 216-224, 228-246. *)
Definition vadd (a b : vect) : vect := V3 (vx a + vx b) (vy a + vy b) (vz a + vz b).
Definition vsub (a b : vect) : vect := V3 (vx a - vx b) (vy a - vy b) (vz a - vz b).
Definition vmul (a : vect) (k : R) : vect := V3 (vx a * k) (vy a * k) (vz a * k).

(** vect.py:250-258. *)
Definition vdivr (a : vect) (k : R) : res vect :=
  if Reqb k 0 then Raise EZeroDivisionError else Ok (vmul a (1 / k)).

(** Vect.__lt__, vect.py:262-277. *)
Definition vlt (a b : vect) : bool :=
  if Rltb (Rabs (vx a - vx b)) eps10 && Rltb (Rabs (vy a - vy b)) eps10 && Rltb (vz a) (vz b) then true
  else if Rltb (Rabs (vx a - vx b)) eps10 && Rltb (vy a) (vy b) then true
  else if Rltb (vx a) (vx b) then true
  else false.

(** vect.py:294-303, 307-314, 318-325, 329-337, 363-372. *)
Definition dot (a b : vect) : R := vx a * vx b + vy a * vy b + vz a * vz b.
Definition mod2 (a : vect) : R := dot a a.
Definition vmod (a : vect) : R := sqrt (mod2 a).
Definition dist_to (a b : vect) : R := vmod (vsub a b).
Definition is_near_v (a b : vect) (eps : R) : bool := Rltb (dist_to a b) eps.

(** Vect.__eq__, vect.py:281-289. *)
Definition veq (a b : vect) : bool := is_near_v a b eps10.

(** Vect.point_on_vector, vect.py:342-358. *)
Definition point_on_vector (v1 v2 p : vect) : bool := isclose (dist_to v1 v2) (dist_to v1 p + dist_to p v2).

(** Vect.orth, vect.py:376-383. *)
Definition orth (a : vect) : res vect := vdivr a (vmod a).

(** Vect.cross_product, vect.py:440-451. *)
Definition cross (a b : vect) : vect :=
  V3 (vy a * vz b - vz a * vy b) (vz a * vx b - vx a * vz b) (vx a * vy b - vy a * vx b).

(** Vect.middle_point, vect.py:454-466. *)
Definition middle_point (a b : vect) : vect := vmul (vadd a b) (1 / 2).

(* ---------------------------------------------------------------- *)
(** ** geom/segment.py, geom/box.py *)

(** Segment, segment.py:17-25. *)
Record segment : Type := Seg { sa : vect; sb : vect }.

Record box : Type := Box3 { minx : R; miny : R; minz : R; maxx : R; maxy : R; maxz : R }.

(** min(xs) and max(xs): ValueError for an empty list. *)
Definition py_min (l : list R) : res R := match l with [] => Raise EValueError | x :: r => Ok (fold_left Rmin r x) end.
Definition py_max (l : list R) : res R := match l with [] => Raise EValueError | x :: r => Ok (fold_left Rmax r x) end.

(** Box constructor, box.py:18-35; from_points 40-48. *)
Definition box_of (ps : list vect) : res box :=
  let xs := map vx ps in
  let ys := map vy ps in
  let zs := map vz ps in
  do x <- py_min xs; do y <- py_min ys; do z <- py_min zs;
  do x' <- py_max xs; do y' <- py_max ys; do z' <- py_max zs;
  Ok (Box3 x y z x' y' z').

(** Box.is_point_inside, box.py:82-92. *)
Definition is_point_inside (b : box) (p : vect) : bool :=
  Rleb (minx b) (vx p) && Rleb (vx p) (maxx b) && Rleb (miny b) (vy p) && Rleb (vy p) (maxy b) &&
  Rleb (minz b) (vz p) && Rleb (vz p) (maxz b).

(** Box.is_potential_intersect_with_box, box.py:124-143. *)
Definition is_potential_intersect_with_box (b o : box) : bool :=
  let no_x := Rltb (maxx b) (minx o) || Rltb (maxx o) (minx b) in
  let no_y := Rltb (maxy b) (miny o) || Rltb (maxy o) (miny b) in
  let no_z := Rltb (maxz b) (minz o) || Rltb (maxz o) (minz b) in
  if no_x || no_y || no_z then false else true.

(** Box.is_intersect_with_segment, box.py:96-120: the box of the segment is built
    (from two points, no exception) and compared in the same way. *)
Definition seg_box (s : segment) : box :=
  let a := sa s in let b := sb s in
  Box3 (Rmin (vx a) (vx b)) (Rmin (vy a) (vy b)) (Rmin (vz a) (vz b))
       (Rmax (vx a) (vx b)) (Rmax (vy a) (vy b)) (Rmax (vz a) (vz b)).
Definition is_intersect_with_segment (b : box) (s : segment) : bool :=
  let o := seg_box s in
  let no_x := Rltb (maxx b) (minx o) || Rltb (maxx o) (minx b) in
  let no_y := Rltb (maxy b) (miny o) || Rltb (maxy o) (miny b) in
  let no_z := Rltb (maxz b) (minz o) || Rltb (maxz o) (minz b) in
  if no_x || no_y || no_z then false else true.

(* ---------------------------------------------------------------- *)
(** ** geom/triangle.py *)

(** Triangle, triangle.py:21-31; [t_ref] stands for the identity of the object (and
    for BackRef). *)
Record triangle : Type := Tri { ta : vect; tb : vect; tc : vect; t_ref : nat }.

Definition points (t : triangle) : list vect := [ta t; tb t; tc t].

(** triangle.py:79-86, 90-99, 103-110. *)
Definition area (t : triangle) : R := / 2 * vmod (cross (vsub (tb t) (ta t)) (vsub (tc t) (tb t))).
Definition normal_orth (t : triangle) : res vect := orth (cross (vsub (tb t) (ta t)) (vsub (tc t) (tb t))).
Definition centroid (t : triangle) : vect := vmul (vadd (vadd (ta t) (tb t)) (tc t)) (1 / 3).

(** Determinants; the rows are the given vectors (transposition does not matter). *)
Definition det2 (a b c d : R) : R := a * d - b * c.
Definition det3 (u v w : vect) : R :=
  vx u * (vy v * vz w - vz v * vy w) - vy u * (vx v * vz w - vz v * vx w) + vz u * (vx v * vy w - vy v * vx w).

(** Triangle.point_in_one_plane, triangle.py:361-385. *)
Definition point_in_one_plane (t : triangle) (p : vect) : bool :=
  Reqb (det3 (vsub p (ta t)) (vsub (tb t) (ta t)) (vsub (tc t) (ta t))) 0.

(** Numbers with float('-Inf') and float('Inf'). *)
Inductive ext : Type := NInf | Fin (x : R) | PInf.

Definition elt (a b : ext) : bool :=
  match a, b with
  | NInf, NInf => false | NInf, _ => true | _, NInf => false
  | PInf, _ => false | Fin _, PInf => true
  | Fin x, Fin y => Rltb x y
  end.
Definition ele (a b : ext) : bool := negb (elt b a).
Definition eadd (a : ext) (x : R) : ext := match a with Fin y => Fin (y + x) | _ => a end.
Definition emax (a b : ext) : ext := if elt a b then b else a.
Definition emin (a b : ext) : ext := if elt b a then b else a.
Definition eclose (a : ext) (y : R) : bool := match a with Fin x => isclose x y | _ => false end.

(** solve_the_linear_equation, triangle.py:192-209; [None] is the empty list. *)
Definition solve_linear (a b : R) : option (ext * ext) :=
  if Rltb 0 a then Some (Fin (- b / a), PInf)
  else if Rltb a 0 then Some (NInf, Fin (- b / a))
  else if Rleb 0 b then Some (NInf, PInf)
  else None.

(** The value of a number that is finite. *)
Definition fin (a : ext) : list R := match a with Fin x => [x] | _ => [] end.

(** The checks try1, try2, try3, triangle.py:236-238. *)
Definition covers (aps : R) (r0 r1 : ext) (d : ext * ext) : bool :=
  ele (eadd (fst d) (- aps)) r0 && ele r1 (eadd (snd d) aps).

(** intersection_of_intervals, triangle.py:211-241. *)
Definition intersection_of_intervals (data : list (ext * ext)) (aps : R) : list R :=
  match data with
  | [d0; d1; d2] =>
      let r0 := emax (emax (fst d0) (fst d1)) (fst d2) in
      let r1 := emin (emin (snd d0) (snd d1)) (snd d2) in
      let checked (r0 r1 : ext) : list R :=
        if covers aps r0 r1 d0 && covers aps r0 r1 d1 && covers aps r0 r1 d2 then fin r0 ++ fin r1 else [] in
      if elt r1 (eadd r0 aps) || elt (eadd r1 aps) r0 ||
         (elt (Fin 1) (eadd r0 (- aps)) && elt (Fin 1) r1) || (elt (eadd r1 aps) (Fin 0) && elt r0 (Fin 0))
      then []
      else if eclose r0 1 && elt (Fin 1) r1 then fin r0
      else if eclose r1 0 && elt r0 (Fin 0) then fin r1
      else if ele (eadd r0 (- aps)) (Fin 0) && ele (Fin 1) (eadd r1 aps) then checked (Fin 0) (Fin 1)
      else if ele (eadd r0 (- aps)) (Fin 0) && elt r1 (Fin 1) then checked (Fin 0) r1
      else if elt (Fin 0) r0 && ele (Fin 1) (eadd r1 aps) then checked r0 (Fin 1)
      else checked r0 r1
  | _ => []
  end.

(** The body of the loops for one pair of axes with a non-zero determinant,
    triangle.py:277-311. *)
Definition plane_params (ba ca qp pa : vect) (i j : nat) (det : R) : list R :=
  let a_alf := det2 (coord qp i) (coord ca i) (coord qp j) (coord ca j) / det in
  let b_alf := det2 (coord pa i) (coord ca i) (coord pa j) (coord ca j) / det in
  let a_bet := det2 (coord ba i) (coord qp i) (coord ba j) (coord qp j) / det in
  let b_bet := det2 (coord ba i) (coord pa i) (coord ba j) (coord pa j) / det in
  let l := [solve_linear a_alf b_alf; solve_linear a_bet b_bet; solve_linear (- a_alf - a_bet) (- b_alf - b_bet + 1)] in
  intersection_of_intervals (flat_map (fun o => match o with Some d => [d] | None => [] end) l) eps10.

(** Triangle.intersection_with_segment, triangle.py:114-327. *)
Definition intersection_with_segment (t : triangle) (s : segment) : list vect :=
  let a := ta t in let b := tb t in let c := tc t in
  let p := sa s in let q := sb s in
  let ba := vsub b a in let ca := vsub c a in let pq := vsub p q in let pa := vsub p a in let qp := vsub q p in
  let d := det3 ba ca pq in
  let determinant i j := round10 (det2 (coord ba i) (coord ca i) (coord ba j) (coord ca j)) in
  if Rltb (Rabs d) eps10 then
    if point_in_one_plane t p && point_in_one_plane t q then
      let try i j := map (fun fi => vadd p (vmul qp fi)) (plane_params ba ca qp pa i j (determinant i j)) in
      if negb (Reqb (determinant 0%nat 1%nat) 0) then try 0%nat 1%nat
      else if negb (Reqb (determinant 0%nat 2%nat) 0) then try 0%nat 2%nat
      else if negb (Reqb (determinant 1%nat 2%nat) 0) then try 1%nat 2%nat
      else []
    else []
  else
    (* np.linalg.inv(m).dot(pa): the exact solution, by Cramer's rule *)
    let alfa := det3 pa ca pq / d in
    let beta := det3 ba pa pq / d in
    let phi := det3 ba ca pa / d in
    let is_inside_tri := Rleb 0 alfa && Rleb 0 beta && Rleb (alfa + beta) 1 in
    let is_inside_seg := Rleb 0 phi && Rleb phi 1 in
    if is_inside_tri && is_inside_seg then [vsub p (vmul pq phi)] else [].

(** Triangle.min_side, triangle.py:506-517. *)
Definition min_side (t : triangle) : R :=
  Rmin (Rmin (vmod (vsub (ta t) (tb t))) (vmod (vsub (tb t) (tc t)))) (vmod (vsub (tc t) (ta t))).

(** Triangle.sorting_by_the_selected_axis, triangle.py:465-480: a stable sort by the
    key, written as an insertion sort. *)
Fixpoint insert_by (key : triangle -> R) (t : triangle) (l : list triangle) : list triangle :=
  match l with
  | [] => [t]
  | u :: r => if Rleb (key t) (key u) then t :: l else u :: insert_by key t r
  end.
Definition sort_by (key : triangle -> R) (l : list triangle) : list triangle := fold_right (insert_by key) [] l.
Definition sorting_by_the_selected_axis (l : list triangle) (axis : nat) : list triangle :=
  sort_by (fun t => coord (centroid t) axis) l.

(* ---------------------------------------------------------------- *)
(** ** geom/triangles_cloud.py *)

(** TrianglesCloud: Triangles, Subclouds, Box. *)
Inductive cloud : Type := Cloud (tris : list triangle) (subs : list cloud) (b : box).

Definition cloud_box (c : cloud) : box := match c with Cloud _ _ b => b end.

(** TrianglesCloud.separate_triangles_list, triangles_cloud.py:94-118.  The list is
    sorted in place, so it is returned too: (sorted list, first half, second half). *)
Definition separate_triangles_list (l : list triangle) : res (list triangle * (list triangle * list triangle)) :=
  if negb (Nat.ltb 1 (length l)) then Raise EAssertionError else
  do b <- box_of (map centroid l);
  let lx := maxx b - minx b in
  let ly := maxy b - miny b in
  let lz := maxz b - minz b in
  let m := Rmax (Rmax lx ly) lz in
  let axis := if Reqb lx m then 0%nat else if Reqb ly m then 1%nat else 2%nat in
  let l' := sorting_by_the_selected_axis l axis in
  let mid := Nat.div (length l') 2 in
  Ok (l', (firstn mid l', skipn mid l')).

(** TrianglesCloud constructor and build_subclouds_tree, triangles_cloud.py:52-90
    (MaxListTrianglesCount is 1).  The recursion is bounded by [fuel]. *)
Fixpoint build_cloud (fuel : nat) (l : list triangle) : res cloud :=
  do b <- box_of (flat_map points l);
  if Nat.ltb 1 (length l) then
    match fuel with
    | O => Raise EOutOfFuel
    | S k =>
        do x <- separate_triangles_list l;
        do c1 <- build_cloud k (fst (snd x));
        do c2 <- build_cloud k (snd (snd x));
        Ok (Cloud [] [c1; c2] b)
    end
  else Ok (Cloud l [] b).
Definition triangles_cloud (l : list triangle) : res cloud := build_cloud (length l) l.

(** The list given to the constructor, after the call (triangles_cloud.py:112 sorts
    it in place). *)
Definition caller_list (l : list triangle) : res (list triangle) :=
  if Nat.ltb 1 (length l) then do x <- separate_triangles_list l; Ok (fst x) else Ok l.

(** TrianglesCloud.is_list, triangles_cloud.py:122-135. *)
Definition is_list (c : cloud) : res bool :=
  match c with Cloud ts ss _ =>
    match ts, ss with
    | _ :: _, _ :: _ => Raise EException
    | _ :: _, [] => Ok true
    | [], _ => Ok false
    end
  end.

(** `t.intersection_with_segment(s) != []`. *)
Definition hits (s : segment) (t : triangle) : bool :=
  match intersection_with_segment t s with [] => false | _ => true end.

(** TrianglesCloud.first_intersection_with_segment, triangles_cloud.py:139-162. *)
Fixpoint first_intersection (s : segment) (c : cloud) : res (option triangle) :=
  match c with Cloud ts ss b =>
    if negb (is_intersect_with_segment b s) then Ok None
    else
      do il <- is_list (Cloud ts ss b);
      if il then Ok (find (hits s) ts)
      else
        (fix go (l : list cloud) : res (option triangle) :=
           match l with
           | [] => Ok None
           | c :: r =>
               do x <- first_intersection s c;
               match x with Some t => Ok (Some t) | None => go r end
           end) ss
  end.

(* ---------------------------------------------------------------- *)
(** ** geom/utils.py *)

(** utils.py:10-33. *)
Definition tetrahedron_volume (a b c d : vect) : R := Rabs (dot (vsub a d) (cross (vsub b d) (vsub c d))) / 6.

(** utils.py:38-69. *)
Definition displaced_triangle_volume (a b c na nb nc : vect) : R :=
  tetrahedron_volume a b c nc + tetrahedron_volume a b nb nc + tetrahedron_volume a na nb nc.

(** utils.py:74-119, the coefficients a and b.  (The third one multiplies a vector by a
    vector and is not used by the callers.) *)
Definition prizmatoid_volume_coefs (v1 v2 v3 n1 n2 n3 n : vect) : res (R * R) :=
  let v21 := vsub v2 v1 in
  let v31 := vsub v3 v1 in
  do u1 <- vdivr n1 (dot n n1);
  do u2 <- vdivr n2 (dot n n2);
  do u3 <- vdivr n3 (dot n n3);
  let u21 := vsub u2 u1 in
  let u31 := vsub u3 u1 in
  Ok (/ 2 * vmod (cross v21 v31), / 4 * dot (vadd (cross v21 u31) (cross u21 v31)) n).
