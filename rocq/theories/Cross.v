(** Model of intersections of triangles: the rest of geom/triangle.py, and
    TrianglesCloud.intersection_with_triangles_cloud.

    [srt] stands for list.sort of a list of Vect (with Vect.__lt__, which is not an order,
    see C45): it is an argument, the theorems assume only that sorting keeps the elements. *)

From Coq Require Import Reals List Bool.
From Verif Require Import Py Geom.
Import ListNotations.
Open Scope R_scope.

(** `[res[0]] + [res[i] for i in range(1, len(res)) if res[i] != res[i - 1]]`,
    triangle.py:432; [!=] is the negation of Vect.__eq__. *)
Fixpoint fresh_after (prev : vect) (l : list vect) : list vect :=
  match l with
  | [] => []
  | x :: r => (if negb (veq x prev) then [x] else []) ++ fresh_after x r
  end.
Definition without_repeats (l : list vect) : list vect :=
  match l with [] => [] | x :: r => x :: fresh_after x r end.

(** Triangle.intersection_with_triangle, triangle.py:407-433; `id(self) == id(tri)` is
    equality of [t_ref]. *)
Definition intersection_with_triangle (srt : list vect -> list vect) (t u : triangle) : list vect :=
  if Nat.eqb (t_ref t) (t_ref u) then []
  else
    let int11 := intersection_with_segment t (Seg (ta u) (tb u)) in
    let int12 := intersection_with_segment t (Seg (tb u) (tc u)) in
    let int13 := intersection_with_segment t (Seg (tc u) (ta u)) in
    let int21 := intersection_with_segment u (Seg (ta t) (tb t)) in
    let int22 := intersection_with_segment u (Seg (tb t) (tc t)) in
    let int23 := intersection_with_segment u (Seg (tc t) (ta t)) in
    let res := int11 ++ int12 ++ int13 ++ int21 ++ int22 ++ int23 in
    match res with
    | [] => res
    | _ :: _ => without_repeats (srt res)
    end.

(** The loops over the triangles of two clouds without subclouds,
    triangles_cloud.py:194-201.  (The two entries share one list of points in Python;
    nothing changes it here.) *)
Definition leaf_pairs (srt : list vect -> list vect) (ts us : list triangle) : list (triangle * list vect) :=
  flat_map (fun t1 => flat_map (fun t2 =>
    match intersection_with_triangle srt t1 t2 with
    | [] => []
    | ps => [(t1, ps); (t2, ps)]
    end) us) ts.

(** TrianglesCloud.intersection_with_triangles_cloud, triangles_cloud.py:166-205. *)
Fixpoint intersection_with_cloud (srt : list vect -> list vect) (c : cloud) : cloud -> list (triangle * list vect) :=
  fix against (d : cloud) : list (triangle * list vect) :=
    match c, d with
    | Cloud ts ss b, Cloud us ds e =>
        if negb (is_potential_intersect_with_box b e) then []
        else
          match ss with
          | _ :: _ =>
              (fix go (l : list cloud) : list (triangle * list vect) :=
                 match l with [] => [] | a :: r => intersection_with_cloud srt a d ++ go r end) ss
          | [] =>
              match ds with
              | _ :: _ =>
                  (fix go (l : list cloud) : list (triangle * list vect) :=
                     match l with [] => [] | a :: r => against a ++ go r end) ds
              | [] => leaf_pairs srt ts us
              end
          end
    end.

(** bool(x) of a float. *)
Definition nonzero (x : R) : nat := if Reqb x 0 then 0 else 1.

(** Triangle.point_in_triangle, triangle.py:331-357. *)
Definition point_in_triangle (t : triangle) (p : vect) : nat :=
  let a := ta t in let b := tb t in let c := tc t in
  let ar1 := round10 (area (Tri a b p 0)) in
  let ar2 := round10 (area (Tri a p c 0)) in
  let ar3 := round10 (area (Tri p b c 0)) in
  if isclose (area t) (ar1 + ar2 + ar3) then nonzero ar1 + nonzero ar2 + nonzero ar3 else 0.

(** Triangle.in_one_plane, triangle.py:389-403. *)
Definition in_one_plane (t u : triangle) : bool :=
  point_in_one_plane t (ta u) && point_in_one_plane t (tb u) && point_in_one_plane t (tc u).

(** Triangle.__eq__, triangle.py:484-502. *)
Definition teq (t u : triangle) : bool :=
  if veq (centroid t) (centroid u) then
    if veq (ta t) (ta u) || veq (ta t) (tb u) || veq (ta t) (tc u) then
      veq (tb t) (ta u) || veq (tb t) (tb u) || veq (tb t) (tc u)
    else false
  else false.
