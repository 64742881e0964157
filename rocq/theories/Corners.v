(** Model of angles: geom/vect.py 388-435, and Triangle.all_corners_smaller and
    Triangle.is_good, geom/triangle.py 437-460 and 521-532. *)

From Coq Require Import Reals Bool List.
From Verif Require Import Py Geom.
Import ListNotations.
Open Scope R_scope.

(** Vect.angle_cos, vect.py:388-397. *)
Definition angle_cos (a b : vect) : res R :=
  if Reqb (vmod a * vmod b) 0 then Raise EZeroDivisionError else Ok (dot a b / (vmod a * vmod b)).

(** Vect.get_angle_in_rad, vect.py:402-416 (the argument of arccos is between -1 and 1 for
    real numbers; rounding errors are not modelled). *)
Definition get_angle_in_rad (a b : vect) : res R := do c <- angle_cos a b; Ok (acos c).

(** Vect.get_angle_in_deg, vect.py:421-435. *)
Definition get_angle_in_deg (a b : vect) : res R := do x <- get_angle_in_rad a b; Ok (x * (180 / PI)).

(** Triangle.all_corners_smaller, triangle.py:437-460. *)
Definition all_corners_smaller (t : triangle) (corner : R) : res bool :=
  let a := ta t in let b := tb t in let c := tc t in
  do x <- get_angle_in_deg (vsub b a) (vsub c a);
  let corn1 := Rltb x corner in
  do y <- get_angle_in_deg (vsub a b) (vsub c b);
  let corn2 := Rltb y corner in
  do z <- get_angle_in_deg (vsub a c) (vsub b c);
  let corn3 := Rltb z corner in
  Ok (corn1 && corn2 && corn3).

(** Triangle.is_good, triangle.py:521-532: the name sqrt is not defined in the module (the
    sum of squares before it is calculated without exceptions). *)
Definition is_good (t : triangle) : res R := Raise ENameError.
