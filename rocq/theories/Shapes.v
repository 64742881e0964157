(** Model of Box.from_triangles, geom/box.py:53-65. *)

From Coq Require Import Reals List.
From Verif Require Import Py Geom.

(** Box.from_triangles, box.py:53-65: the box of the points of all triangles. *)
Definition box_from_triangles (ts : list triangle) : res box := box_of (flat_map points ts).
