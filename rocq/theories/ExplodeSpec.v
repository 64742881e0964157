(** Specification vocabulary for the explosion of a grid file. *)

From Coq Require Import ZArith Reals Bool List.
From Verif Require Import Py Heap FileSpec Geom ConvertSpec.
Import ListNotations.
Open Scope list_scope.

Section ExplodeSpec.
  Context {F : FloatOps}.
  Variables (real : val -> R) (near : R -> val).

  (** The points of a zone of a file that are corners of its faces, in the order of the file. *)
  Definition used_points (zr : zone_rec) : list pt :=
    map snd (filter (fun ip => existsb (fun t => let '(a, b, c) := t in (Nat.eqb (fst ip) a || Nat.eqb (fst ip) b || Nat.eqb (fst ip) c)%bool) (zr_conn zr))
      (combine (seq 0 (length (zr_pts zr))) (zr_pts zr))).

  (** A point of a file as a vector. *)
  Definition vector (p : pt) : vect := let '(x, y, z) := p in V3 (real x) (real y) (real z).

  (** The point [p] moved by the vector [s]. *)
  Definition moved (s : vect) (p : pt) : pt :=
    let v := vadd (vector p) s in (near (vx v), near (vy v), near (vz v)).

  (** [k] times the vector from the mean of the points of the file to the mean of the corners
      of the zone. *)
  Definition way (k : R) (zs : list zone_rec) (zr : zone_rec) : vect :=
    vmul (vsub (mean (map vector (used_points zr))) (mean (map vector (all_pts zs)))) k.

  (** The zone [zr'] is the zone [zr] moved by [s] as a whole, without points that are not
      corners. *)
  Definition moved_zone (s : vect) (zr zr' : zone_rec) : Prop :=
    zr_name zr' = zr_name zr /\ zr_vars zr' = zr_vars zr /\ zr_data zr' = zr_data zr /\
    zr_pts zr' = map (moved s) (used_points zr) /\
    Forall2 (fun t t' => FileSpec.corners zr' t' = map (option_map (moved s)) (FileSpec.corners zr t)) (zr_conn zr) (zr_conn zr').
End ExplodeSpec.
