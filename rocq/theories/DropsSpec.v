(** Specification vocabulary for droplet flights. *)

From Coq Require Import ZArith Reals List String.
From Verif Require Import Py Geom GeomSpec.
Import ListNotations.
Open Scope list_scope.
Open Scope R_scope.

(** [e] is the first of the items nearest to [p]. *)
Definition first_nearest {A} (at_ : A -> vect) (l : list A) (p : vect) (e : A) : Prop :=
  exists l1 l2, l = l1 ++ e :: l2 /\
    (forall x, In x l1 -> dist_to (at_ e) p < dist_to (at_ x) p) /\
    (forall x, In x l2 -> dist_to (at_ e) p <= dist_to (at_ x) p).

(** The drag law: Reynolds number of a droplet of diameter [d] and relative speed [u],
    drag coefficient, and the rate at which the velocity tends to that of the air
    (air density 1.292, viscosity 1.736e-5, water density 1000). *)
Definition reynolds (u d : R) : R := u * d / (1736 / 100000000).
Definition drag_coef (re : R) : R :=
  if Rle_dec re 350 then 24 / re * (1 + 166 / 1000 * Rpower re (33 / 100)) else 178 / 1000 * Rpower re (217 / 1000).
Definition drag_rate (u d : R) : R := 75 / 100 * (drag_coef (reynolds u d) * (1292 / 1000) / (d * 1000)) * u.

(** One time step of a droplet in the air whose velocity is [w]. *)
Definition moved (d dt : R) (w p v p' v' : vect) : Prop :=
  p' = vadd p (vmul v dt) /\
  v' = vadd v (vmul (vsub w v) (drag_rate (dist_to v w) d * dt)).

(** [a] and [b] are the points number [i] and [i+1]. *)
Definition leg (pts : list vect) (i : nat) (a b : vect) : Prop :=
  nth_error pts i = Some a /\ nth_error pts (S i) = Some b.

(** A trajectory: positions [pts] and velocities [vs] at these moments, in the air
    given by samples [ds]. *)
Definition trajectory (ds : list (vect * vect)) (d dt : R) (pts vs : list vect) : Prop :=
  List.length pts = List.length vs /\
  forall i a b v v', leg pts i a b -> leg vs i v v' ->
    exists n, first_nearest fst ds a n /\ moved d dt (snd n) a v b v'.

(** The segment of a leg does not lie along the planes of triangles. *)
Definition crosswise (l : list triangle) (a b : vect) : Prop :=
  forall t, In t l -> eps10 <= Rabs (spanned t (Seg a b)).

(* ---------------------------------------------------------------- *)
(** ** Secondary impingement *)

From Verif Require Import Drops.

(** The droplet of face number [i] is let go (the Stall value is above the threshold)
    and its flight ends on face number [j]. *)
Definition lands (air : space) (c : cloud) (d dt thr : R) (max_steps : Z) (fs : list dface) (i j : nat) : Prop :=
  exists f tr, nth_error fs i = Some f /\ thr < getitem f kStall /\ flight air c d dt max_steps f i = Ok (VC, Some j, tr).

(** Faces at the same place. *)
Definition same_place (f g : dface) : Prop := df_a f = df_a g /\ df_b f = df_b g /\ df_c f = df_c g.

(** Data dictionaries of Python have no repeated keys. *)
Definition dict_ok (f : dface) : Prop := NoDup (keys (df_data f)).

(** The five fields about stall. *)
Definition is_stall (k : str) : Prop := In k [lit "Stall"; lit "StallD"; lit "StallVX"; lit "StallVY"; lit "StallVZ"].

(** The sum of a list. *)
Definition sum (l : list R) : R := fold_right Rplus 0 l.

(** The mass of the droplets of the faces [is]. *)
Definition masses (fs : list dface) (is : list nat) : R :=
  sum (map (fun i => match nth_error fs i with Some f => getitem f kStall | None => 0 end) is).

(** The point at the distance [d] from the centre of the face, on the side from which its
    corners are seen in the order a, b, c. *)
Definition above (f : dface) (d : R) (p : vect) : Prop :=
  exists n, vmod n = 1 /\ dot n (vsub (df_b f) (df_a f)) = 0 /\ dot n (vsub (df_c f) (df_a f)) = 0 /\
    0 < dot n (cross (vsub (df_b f) (df_a f)) (vsub (df_c f) (df_a f))) /\
    vx p = (vx (df_a f) + vx (df_b f) + vx (df_c f)) / 3 + d * vx n /\
    vy p = (vy (df_a f) + vy (df_b f) + vy (df_c f)) / 3 + d * vy n /\
    vz p = (vz (df_a f) + vz (df_b f) + vz (df_c f)) / 3 + d * vz n.

(** The way from [x] to [y] meets the face; it does not go along the planes of faces. *)
Definition meets (f : dface) (x y : vect) : Prop := exists z, in_triangle (df_a f) (df_b f) (df_c f) z /\ on_segment x y z.
Definition across (fs : list dface) (x y : vect) : Prop :=
  forall f, In f fs -> eps10 <= Rabs (spanned (Tri (df_a f) (df_b f) (df_c f) 0) (Seg x y)).
