(** Properties of the boxes of lists of triangles: C132.

    Model: Shapes.v, Geom.v.  Specification vocabulary: GeomSpec.v. *)

From Coq Require Import Reals Lra List.
From Verif Require Import Py Geom GeomSpec GeomProofs CloudProofs Shapes ShapesProofs.
Import ListNotations.
Open Scope R_scope.

(** C132.  Box.from_triangles gives the smallest box with all points of all triangles (not
    their corners only) ... *)
Theorem C132_smallest : forall ts, ts <> [] -> exists b, box_from_triangles ts = Ok b /\
  (forall t x, In t ts -> in_triangle (ta t) (tb t) (tc t) x -> in_box b x) /\
  (forall b', (forall t x, In t ts -> in_triangle (ta t) (tb t) (tc t) x -> in_box b' x) -> box_within b b').
Proof. exact triangles_box. Qed.
Print Assumptions C132_smallest.

(** ... and raises ValueError for no triangles. *)
Theorem C132_none : box_from_triangles [] = Raise EValueError.
Proof. exact eq_refl. Qed.
Print Assumptions C132_none.

(** C132.  Neither the order of the triangles nor their repetition matters. *)
Theorem C132_order : forall ts ts', (forall t, In t ts <-> In t ts') -> box_from_triangles ts = box_from_triangles ts'.
Proof. exact same_triangles. Qed.
Print Assumptions C132_order.

Example C132_order_example : forall t, In t [low; high] <-> In t [high; low; high].
Proof. intros t. cbn. tauto. Qed.

(** C132.  If the boxes of two lists do not meet, no triangle of the first has a point in common
    with a triangle of the second. *)
Theorem C132_apart : forall ts ts' b b', box_from_triangles ts = Ok b -> box_from_triangles ts' = Ok b' -> is_potential_intersect_with_box b b' = false ->
  forall t t' x, In t ts -> In t' ts' -> in_triangle (ta t) (tb t) (tc t) x -> in_triangle (ta t') (tb t') (tc t') x -> False.
Proof. exact boxes_apart. Qed.
Print Assumptions C132_apart.

Definition far : triangle := Tri (V3 5 5 5) (V3 6 5 5) (V3 5 6 5) 2.
Example C132_apart_example : exists b b', box_from_triangles [low] = Ok b /\ box_from_triangles [far] = Ok b' /\ is_potential_intersect_with_box b b' = false.
Proof.
  eexists. eexists. split; [reflexivity|]. split; [reflexivity|]. cbn. unfold is_potential_intersect_with_box. cbn.
  replace (Rltb (Rmax (Rmax 0 1) 0) (Rmin (Rmin 5 6) 5)) with true; [reflexivity|].
  symmetry. apply Rltb_true. unfold Rmax, Rmin. repeat (destruct (Rle_dec _ _); try lra).
Qed.

(** C132.  The converse is false: boxes can meet although the triangles do not. *)
Theorem C132_meet_refuted : exists t t' b b', box_from_triangles [t] = Ok b /\ box_from_triangles [t'] = Ok b' /\ is_potential_intersect_with_box b b' = true /\
  forall x, in_triangle (ta t) (tb t) (tc t) x -> in_triangle (ta t') (tb t') (tc t') x -> False.
Proof. exact (ex_intro _ low (ex_intro _ high boxes_meet)). Qed.
Print Assumptions C132_meet_refuted.
