(** Object heap of a grid and the state-and-exception monad.

    Models the classes of gsu/node.py (17-36), gsu/edge.py (15-25),
    gsu/face.py (18-37), gsu/zone.py (16-33) and gsu/grid.py (21-38).

    Objects are numbered; attribute [a] of class [C] is the function [C_a] from
    object numbers to values, so an assignment `x.a = v` updates one function at
    one number and nothing else.  `next_C` objects of class [C] exist. *)

From Coq Require Import ZArith NArith Ascii String Bool List.
From Verif Require Import Py.
Import ListNotations.
Open Scope list_scope.

(** Floating point numbers as used by the grid code.  They are opaque:
    - [val] Python floats (no NaN), [val0] the constant 0.0;
    - [rval], [rnd1] the result of `round(x, 10)` up to `==`
      (geom/vect.py rounded_coords_tuple);
    - [fmt] is `'{0:.18e}'.format(x)`, [prs] is `float(s)` ([None]: ValueError);
    - [vltb] is `x < y`;
    - [vdist] is Vect.dist_to, [vmid] is the middle of two points,
      [vcen] is Face.get_center on three corners, as functions of points. *)
Class FloatOps := {
  val : Type;
  val0 : val;
  rval : Type;
  rnd1 : val -> rval;
  rval_dec : forall x y : rval, {x = y} + {x <> y};
  fmt : val -> str;
  prs : str -> option val;
  vltb : val -> val -> bool;
  vdist : val * val * val -> val * val * val -> val;
  vmid : val * val * val -> val * val * val -> val * val * val;
  vcen : val * val * val -> val * val * val -> val * val * val -> val * val * val
}.

(** `m[k] = v` on a total map. *)
Definition upd {A} (m : nat -> A) (k : nat) (v : A) : nat -> A :=
  fun j => if Nat.eqb j k then v else m j.

Section Heap.
  Context {F : FloatOps}.

  (** A point (geom.Vect). *)
  Definition pt : Type := val * val * val.

  (** Rounded coordinates of a point. *)
  Definition rc : Type := rval * rval * rval.

  Definition rc_dec : forall x y : rc, {x = y} + {x <> y}.
  Proof. repeat decide equality; apply rval_dec. Defined.

  (** `a == b` on rounded coordinates. *)
  Definition rc_eqb (a b : rc) : bool := if rc_dec a b then true else false.

  (** Vect.rounded_coords_tuple(10), used in gsu/node.py:30. *)
  Definition rnd (p : pt) : rc :=
    match p with (x, y, z) => (rnd1 x, rnd1 y, rnd1 z) end.

  (** Coordinate [i] of a point (`P[i]`), i = 0, 1, 2. *)
  Definition coord (i : nat) (p : pt) : val :=
    match p with (x, y, z) => match i with 0 => x | 1 => y | _ => z end end.

  Record heap : Type := mkHeap {
    n_glo : nat -> Z;  (** Node.GloId *)
    n_p : nat -> pt;  (** Node.P *)
    n_rc : nat -> rc;  (** Node.RoundedCoords *)
    n_edges : nat -> list nat;  (** Node.Edges *)
    n_faces : nat -> list nat;  (** Node.Faces *)
    n_border : nat -> bool;  (** Node.border *)
    e_glo : nat -> Z;  (** Edge.GloId *)
    e_nodes : nat -> list nat;  (** Edge.Nodes *)
    e_faces : nat -> list nat;  (** Edge.Faces *)
    f_glo : nat -> Z;  (** Face.GloId *)
    f_data : nat -> dict str val;  (** Face.Data *)
    f_nodes : nat -> list nat;  (** Face.Nodes *)
    f_edges : nat -> list nat;  (** Face.Edges *)
    f_zone : nat -> option nat;  (** Face.Zone (None or a zone) *)
    f_mark : nat -> option bool;  (** Face.bfs_mark (None: attribute not set yet) *)
    z_id : nat -> Z;  (** Zone.Id *)
    z_name : nat -> str;  (** Zone.Name *)
    z_nodes : nat -> list nat;  (** Zone.Nodes *)
    z_edges : nat -> list nat;  (** Zone.Edges *)
    z_faces : nat -> list nat;  (** Zone.Faces *)
    z_fixed : nat -> bool;  (** Zone.IsFixed *)
    next_n : nat;  (** number of Node objects created so far *)
    next_e : nat;  (** number of Edge objects created so far *)
    next_f : nat;  (** number of Face objects created so far *)
    next_z : nat;  (** number of Zone objects created so far *)
    g_name : str;  (** Grid.Name *)
    g_nodes : list nat;  (** Grid.Nodes *)
    g_edges : list nat;  (** Grid.Edges *)
    g_faces : list nat;  (** Grid.Faces *)
    g_zones : list nat;  (** Grid.Zones *)
    g_bag : list rc;  (** Grid.RoundedCoordsBag *)
    g_nborder : nat  (** Grid.number_of_border_nodes *)
  }.

  (** Field updates of the heap record. *)
  Definition set_n_glo (h : heap) (v : nat -> Z) : heap :=
      mkHeap v (n_p h) (n_rc h) (n_edges h) (n_faces h) (n_border h) (e_glo h) (e_nodes h)
      (e_faces h) (f_glo h) (f_data h) (f_nodes h) (f_edges h) (f_zone h) (f_mark h) (z_id
      h) (z_name h) (z_nodes h) (z_edges h) (z_faces h) (z_fixed h) (next_n h) (next_e h)
      (next_f h) (next_z h) (g_name h) (g_nodes h) (g_edges h) (g_faces h) (g_zones h)
      (g_bag h) (g_nborder h).
  Definition set_n_p (h : heap) (v : nat -> pt) : heap :=
      mkHeap (n_glo h) v (n_rc h) (n_edges h) (n_faces h) (n_border h) (e_glo h) (e_nodes
      h) (e_faces h) (f_glo h) (f_data h) (f_nodes h) (f_edges h) (f_zone h) (f_mark h)
      (z_id h) (z_name h) (z_nodes h) (z_edges h) (z_faces h) (z_fixed h) (next_n h)
      (next_e h) (next_f h) (next_z h) (g_name h) (g_nodes h) (g_edges h) (g_faces h)
      (g_zones h) (g_bag h) (g_nborder h).
  Definition set_n_rc (h : heap) (v : nat -> rc) : heap :=
      mkHeap (n_glo h) (n_p h) v (n_edges h) (n_faces h) (n_border h) (e_glo h) (e_nodes
      h) (e_faces h) (f_glo h) (f_data h) (f_nodes h) (f_edges h) (f_zone h) (f_mark h)
      (z_id h) (z_name h) (z_nodes h) (z_edges h) (z_faces h) (z_fixed h) (next_n h)
      (next_e h) (next_f h) (next_z h) (g_name h) (g_nodes h) (g_edges h) (g_faces h)
      (g_zones h) (g_bag h) (g_nborder h).
  Definition set_n_edges (h : heap) (v : nat -> list nat) : heap :=
      mkHeap (n_glo h) (n_p h) (n_rc h) v (n_faces h) (n_border h) (e_glo h) (e_nodes h)
      (e_faces h) (f_glo h) (f_data h) (f_nodes h) (f_edges h) (f_zone h) (f_mark h) (z_id
      h) (z_name h) (z_nodes h) (z_edges h) (z_faces h) (z_fixed h) (next_n h) (next_e h)
      (next_f h) (next_z h) (g_name h) (g_nodes h) (g_edges h) (g_faces h) (g_zones h)
      (g_bag h) (g_nborder h).
  Definition set_n_faces (h : heap) (v : nat -> list nat) : heap :=
      mkHeap (n_glo h) (n_p h) (n_rc h) (n_edges h) v (n_border h) (e_glo h) (e_nodes h)
      (e_faces h) (f_glo h) (f_data h) (f_nodes h) (f_edges h) (f_zone h) (f_mark h) (z_id
      h) (z_name h) (z_nodes h) (z_edges h) (z_faces h) (z_fixed h) (next_n h) (next_e h)
      (next_f h) (next_z h) (g_name h) (g_nodes h) (g_edges h) (g_faces h) (g_zones h)
      (g_bag h) (g_nborder h).
  Definition set_n_border (h : heap) (v : nat -> bool) : heap :=
      mkHeap (n_glo h) (n_p h) (n_rc h) (n_edges h) (n_faces h) v (e_glo h) (e_nodes h)
      (e_faces h) (f_glo h) (f_data h) (f_nodes h) (f_edges h) (f_zone h) (f_mark h) (z_id
      h) (z_name h) (z_nodes h) (z_edges h) (z_faces h) (z_fixed h) (next_n h) (next_e h)
      (next_f h) (next_z h) (g_name h) (g_nodes h) (g_edges h) (g_faces h) (g_zones h)
      (g_bag h) (g_nborder h).
  Definition set_e_glo (h : heap) (v : nat -> Z) : heap :=
      mkHeap (n_glo h) (n_p h) (n_rc h) (n_edges h) (n_faces h) (n_border h) v (e_nodes h)
      (e_faces h) (f_glo h) (f_data h) (f_nodes h) (f_edges h) (f_zone h) (f_mark h) (z_id
      h) (z_name h) (z_nodes h) (z_edges h) (z_faces h) (z_fixed h) (next_n h) (next_e h)
      (next_f h) (next_z h) (g_name h) (g_nodes h) (g_edges h) (g_faces h) (g_zones h)
      (g_bag h) (g_nborder h).
  Definition set_e_nodes (h : heap) (v : nat -> list nat) : heap :=
      mkHeap (n_glo h) (n_p h) (n_rc h) (n_edges h) (n_faces h) (n_border h) (e_glo h) v
      (e_faces h) (f_glo h) (f_data h) (f_nodes h) (f_edges h) (f_zone h) (f_mark h) (z_id
      h) (z_name h) (z_nodes h) (z_edges h) (z_faces h) (z_fixed h) (next_n h) (next_e h)
      (next_f h) (next_z h) (g_name h) (g_nodes h) (g_edges h) (g_faces h) (g_zones h)
      (g_bag h) (g_nborder h).
  Definition set_e_faces (h : heap) (v : nat -> list nat) : heap :=
      mkHeap (n_glo h) (n_p h) (n_rc h) (n_edges h) (n_faces h) (n_border h) (e_glo h)
      (e_nodes h) v (f_glo h) (f_data h) (f_nodes h) (f_edges h) (f_zone h) (f_mark h)
      (z_id h) (z_name h) (z_nodes h) (z_edges h) (z_faces h) (z_fixed h) (next_n h)
      (next_e h) (next_f h) (next_z h) (g_name h) (g_nodes h) (g_edges h) (g_faces h)
      (g_zones h) (g_bag h) (g_nborder h).
  Definition set_f_glo (h : heap) (v : nat -> Z) : heap :=
      mkHeap (n_glo h) (n_p h) (n_rc h) (n_edges h) (n_faces h) (n_border h) (e_glo h)
      (e_nodes h) (e_faces h) v (f_data h) (f_nodes h) (f_edges h) (f_zone h) (f_mark h)
      (z_id h) (z_name h) (z_nodes h) (z_edges h) (z_faces h) (z_fixed h) (next_n h)
      (next_e h) (next_f h) (next_z h) (g_name h) (g_nodes h) (g_edges h) (g_faces h)
      (g_zones h) (g_bag h) (g_nborder h).
  Definition set_f_data (h : heap) (v : nat -> dict str val) : heap :=
      mkHeap (n_glo h) (n_p h) (n_rc h) (n_edges h) (n_faces h) (n_border h) (e_glo h)
      (e_nodes h) (e_faces h) (f_glo h) v (f_nodes h) (f_edges h) (f_zone h) (f_mark h)
      (z_id h) (z_name h) (z_nodes h) (z_edges h) (z_faces h) (z_fixed h) (next_n h)
      (next_e h) (next_f h) (next_z h) (g_name h) (g_nodes h) (g_edges h) (g_faces h)
      (g_zones h) (g_bag h) (g_nborder h).
  Definition set_f_nodes (h : heap) (v : nat -> list nat) : heap :=
      mkHeap (n_glo h) (n_p h) (n_rc h) (n_edges h) (n_faces h) (n_border h) (e_glo h)
      (e_nodes h) (e_faces h) (f_glo h) (f_data h) v (f_edges h) (f_zone h) (f_mark h)
      (z_id h) (z_name h) (z_nodes h) (z_edges h) (z_faces h) (z_fixed h) (next_n h)
      (next_e h) (next_f h) (next_z h) (g_name h) (g_nodes h) (g_edges h) (g_faces h)
      (g_zones h) (g_bag h) (g_nborder h).
  Definition set_f_edges (h : heap) (v : nat -> list nat) : heap :=
      mkHeap (n_glo h) (n_p h) (n_rc h) (n_edges h) (n_faces h) (n_border h) (e_glo h)
      (e_nodes h) (e_faces h) (f_glo h) (f_data h) (f_nodes h) v (f_zone h) (f_mark h)
      (z_id h) (z_name h) (z_nodes h) (z_edges h) (z_faces h) (z_fixed h) (next_n h)
      (next_e h) (next_f h) (next_z h) (g_name h) (g_nodes h) (g_edges h) (g_faces h)
      (g_zones h) (g_bag h) (g_nborder h).
  Definition set_f_zone (h : heap) (v : nat -> option nat) : heap :=
      mkHeap (n_glo h) (n_p h) (n_rc h) (n_edges h) (n_faces h) (n_border h) (e_glo h)
      (e_nodes h) (e_faces h) (f_glo h) (f_data h) (f_nodes h) (f_edges h) v (f_mark h)
      (z_id h) (z_name h) (z_nodes h) (z_edges h) (z_faces h) (z_fixed h) (next_n h)
      (next_e h) (next_f h) (next_z h) (g_name h) (g_nodes h) (g_edges h) (g_faces h)
      (g_zones h) (g_bag h) (g_nborder h).
  Definition set_f_mark (h : heap) (v : nat -> option bool) : heap :=
      mkHeap (n_glo h) (n_p h) (n_rc h) (n_edges h) (n_faces h) (n_border h) (e_glo h)
      (e_nodes h) (e_faces h) (f_glo h) (f_data h) (f_nodes h) (f_edges h) (f_zone h) v
      (z_id h) (z_name h) (z_nodes h) (z_edges h) (z_faces h) (z_fixed h) (next_n h)
      (next_e h) (next_f h) (next_z h) (g_name h) (g_nodes h) (g_edges h) (g_faces h)
      (g_zones h) (g_bag h) (g_nborder h).
  Definition set_z_id (h : heap) (v : nat -> Z) : heap :=
      mkHeap (n_glo h) (n_p h) (n_rc h) (n_edges h) (n_faces h) (n_border h) (e_glo h)
      (e_nodes h) (e_faces h) (f_glo h) (f_data h) (f_nodes h) (f_edges h) (f_zone h)
      (f_mark h) v (z_name h) (z_nodes h) (z_edges h) (z_faces h) (z_fixed h) (next_n h)
      (next_e h) (next_f h) (next_z h) (g_name h) (g_nodes h) (g_edges h) (g_faces h)
      (g_zones h) (g_bag h) (g_nborder h).
  Definition set_z_name (h : heap) (v : nat -> str) : heap :=
      mkHeap (n_glo h) (n_p h) (n_rc h) (n_edges h) (n_faces h) (n_border h) (e_glo h)
      (e_nodes h) (e_faces h) (f_glo h) (f_data h) (f_nodes h) (f_edges h) (f_zone h)
      (f_mark h) (z_id h) v (z_nodes h) (z_edges h) (z_faces h) (z_fixed h) (next_n h)
      (next_e h) (next_f h) (next_z h) (g_name h) (g_nodes h) (g_edges h) (g_faces h)
      (g_zones h) (g_bag h) (g_nborder h).
  Definition set_z_nodes (h : heap) (v : nat -> list nat) : heap :=
      mkHeap (n_glo h) (n_p h) (n_rc h) (n_edges h) (n_faces h) (n_border h) (e_glo h)
      (e_nodes h) (e_faces h) (f_glo h) (f_data h) (f_nodes h) (f_edges h) (f_zone h)
      (f_mark h) (z_id h) (z_name h) v (z_edges h) (z_faces h) (z_fixed h) (next_n h)
      (next_e h) (next_f h) (next_z h) (g_name h) (g_nodes h) (g_edges h) (g_faces h)
      (g_zones h) (g_bag h) (g_nborder h).
  Definition set_z_edges (h : heap) (v : nat -> list nat) : heap :=
      mkHeap (n_glo h) (n_p h) (n_rc h) (n_edges h) (n_faces h) (n_border h) (e_glo h)
      (e_nodes h) (e_faces h) (f_glo h) (f_data h) (f_nodes h) (f_edges h) (f_zone h)
      (f_mark h) (z_id h) (z_name h) (z_nodes h) v (z_faces h) (z_fixed h) (next_n h)
      (next_e h) (next_f h) (next_z h) (g_name h) (g_nodes h) (g_edges h) (g_faces h)
      (g_zones h) (g_bag h) (g_nborder h).
  Definition set_z_faces (h : heap) (v : nat -> list nat) : heap :=
      mkHeap (n_glo h) (n_p h) (n_rc h) (n_edges h) (n_faces h) (n_border h) (e_glo h)
      (e_nodes h) (e_faces h) (f_glo h) (f_data h) (f_nodes h) (f_edges h) (f_zone h)
      (f_mark h) (z_id h) (z_name h) (z_nodes h) (z_edges h) v (z_fixed h) (next_n h)
      (next_e h) (next_f h) (next_z h) (g_name h) (g_nodes h) (g_edges h) (g_faces h)
      (g_zones h) (g_bag h) (g_nborder h).
  Definition set_z_fixed (h : heap) (v : nat -> bool) : heap :=
      mkHeap (n_glo h) (n_p h) (n_rc h) (n_edges h) (n_faces h) (n_border h) (e_glo h)
      (e_nodes h) (e_faces h) (f_glo h) (f_data h) (f_nodes h) (f_edges h) (f_zone h)
      (f_mark h) (z_id h) (z_name h) (z_nodes h) (z_edges h) (z_faces h) v (next_n h)
      (next_e h) (next_f h) (next_z h) (g_name h) (g_nodes h) (g_edges h) (g_faces h)
      (g_zones h) (g_bag h) (g_nborder h).
  Definition set_next_n (h : heap) (v : nat) : heap :=
      mkHeap (n_glo h) (n_p h) (n_rc h) (n_edges h) (n_faces h) (n_border h) (e_glo h)
      (e_nodes h) (e_faces h) (f_glo h) (f_data h) (f_nodes h) (f_edges h) (f_zone h)
      (f_mark h) (z_id h) (z_name h) (z_nodes h) (z_edges h) (z_faces h) (z_fixed h) v
      (next_e h) (next_f h) (next_z h) (g_name h) (g_nodes h) (g_edges h) (g_faces h)
      (g_zones h) (g_bag h) (g_nborder h).
  Definition set_next_e (h : heap) (v : nat) : heap :=
      mkHeap (n_glo h) (n_p h) (n_rc h) (n_edges h) (n_faces h) (n_border h) (e_glo h)
      (e_nodes h) (e_faces h) (f_glo h) (f_data h) (f_nodes h) (f_edges h) (f_zone h)
      (f_mark h) (z_id h) (z_name h) (z_nodes h) (z_edges h) (z_faces h) (z_fixed h)
      (next_n h) v (next_f h) (next_z h) (g_name h) (g_nodes h) (g_edges h) (g_faces h)
      (g_zones h) (g_bag h) (g_nborder h).
  Definition set_next_f (h : heap) (v : nat) : heap :=
      mkHeap (n_glo h) (n_p h) (n_rc h) (n_edges h) (n_faces h) (n_border h) (e_glo h)
      (e_nodes h) (e_faces h) (f_glo h) (f_data h) (f_nodes h) (f_edges h) (f_zone h)
      (f_mark h) (z_id h) (z_name h) (z_nodes h) (z_edges h) (z_faces h) (z_fixed h)
      (next_n h) (next_e h) v (next_z h) (g_name h) (g_nodes h) (g_edges h) (g_faces h)
      (g_zones h) (g_bag h) (g_nborder h).
  Definition set_next_z (h : heap) (v : nat) : heap :=
      mkHeap (n_glo h) (n_p h) (n_rc h) (n_edges h) (n_faces h) (n_border h) (e_glo h)
      (e_nodes h) (e_faces h) (f_glo h) (f_data h) (f_nodes h) (f_edges h) (f_zone h)
      (f_mark h) (z_id h) (z_name h) (z_nodes h) (z_edges h) (z_faces h) (z_fixed h)
      (next_n h) (next_e h) (next_f h) v (g_name h) (g_nodes h) (g_edges h) (g_faces h)
      (g_zones h) (g_bag h) (g_nborder h).
  Definition set_g_name (h : heap) (v : str) : heap :=
      mkHeap (n_glo h) (n_p h) (n_rc h) (n_edges h) (n_faces h) (n_border h) (e_glo h)
      (e_nodes h) (e_faces h) (f_glo h) (f_data h) (f_nodes h) (f_edges h) (f_zone h)
      (f_mark h) (z_id h) (z_name h) (z_nodes h) (z_edges h) (z_faces h) (z_fixed h)
      (next_n h) (next_e h) (next_f h) (next_z h) v (g_nodes h) (g_edges h) (g_faces h)
      (g_zones h) (g_bag h) (g_nborder h).
  Definition set_g_nodes (h : heap) (v : list nat) : heap :=
      mkHeap (n_glo h) (n_p h) (n_rc h) (n_edges h) (n_faces h) (n_border h) (e_glo h)
      (e_nodes h) (e_faces h) (f_glo h) (f_data h) (f_nodes h) (f_edges h) (f_zone h)
      (f_mark h) (z_id h) (z_name h) (z_nodes h) (z_edges h) (z_faces h) (z_fixed h)
      (next_n h) (next_e h) (next_f h) (next_z h) (g_name h) v (g_edges h) (g_faces h)
      (g_zones h) (g_bag h) (g_nborder h).
  Definition set_g_edges (h : heap) (v : list nat) : heap :=
      mkHeap (n_glo h) (n_p h) (n_rc h) (n_edges h) (n_faces h) (n_border h) (e_glo h)
      (e_nodes h) (e_faces h) (f_glo h) (f_data h) (f_nodes h) (f_edges h) (f_zone h)
      (f_mark h) (z_id h) (z_name h) (z_nodes h) (z_edges h) (z_faces h) (z_fixed h)
      (next_n h) (next_e h) (next_f h) (next_z h) (g_name h) (g_nodes h) v (g_faces h)
      (g_zones h) (g_bag h) (g_nborder h).
  Definition set_g_faces (h : heap) (v : list nat) : heap :=
      mkHeap (n_glo h) (n_p h) (n_rc h) (n_edges h) (n_faces h) (n_border h) (e_glo h)
      (e_nodes h) (e_faces h) (f_glo h) (f_data h) (f_nodes h) (f_edges h) (f_zone h)
      (f_mark h) (z_id h) (z_name h) (z_nodes h) (z_edges h) (z_faces h) (z_fixed h)
      (next_n h) (next_e h) (next_f h) (next_z h) (g_name h) (g_nodes h) (g_edges h) v
      (g_zones h) (g_bag h) (g_nborder h).
  Definition set_g_zones (h : heap) (v : list nat) : heap :=
      mkHeap (n_glo h) (n_p h) (n_rc h) (n_edges h) (n_faces h) (n_border h) (e_glo h)
      (e_nodes h) (e_faces h) (f_glo h) (f_data h) (f_nodes h) (f_edges h) (f_zone h)
      (f_mark h) (z_id h) (z_name h) (z_nodes h) (z_edges h) (z_faces h) (z_fixed h)
      (next_n h) (next_e h) (next_f h) (next_z h) (g_name h) (g_nodes h) (g_edges h)
      (g_faces h) v (g_bag h) (g_nborder h).
  Definition set_g_bag (h : heap) (v : list rc) : heap :=
      mkHeap (n_glo h) (n_p h) (n_rc h) (n_edges h) (n_faces h) (n_border h) (e_glo h)
      (e_nodes h) (e_faces h) (f_glo h) (f_data h) (f_nodes h) (f_edges h) (f_zone h)
      (f_mark h) (z_id h) (z_name h) (z_nodes h) (z_edges h) (z_faces h) (z_fixed h)
      (next_n h) (next_e h) (next_f h) (next_z h) (g_name h) (g_nodes h) (g_edges h)
      (g_faces h) (g_zones h) v (g_nborder h).
  Definition set_g_nborder (h : heap) (v : nat) : heap :=
      mkHeap (n_glo h) (n_p h) (n_rc h) (n_edges h) (n_faces h) (n_border h) (e_glo h)
      (e_nodes h) (e_faces h) (f_glo h) (f_data h) (f_nodes h) (f_edges h) (f_zone h)
      (f_mark h) (z_id h) (z_name h) (z_nodes h) (z_edges h) (z_faces h) (z_fixed h)
      (next_n h) (next_e h) (next_f h) (next_z h) (g_name h) (g_nodes h) (g_edges h)
      (g_faces h) (g_zones h) (g_bag h) v.

  (* ---------------------------------------------------------------- *)
  (** ** Monad: a computation transforms the heap and returns or raises;
         the heap at the moment of raising is kept. *)

  Definition M (A : Type) : Type := heap -> res A * heap.

  Definition ret {A} (a : A) : M A := fun h => (Ok a, h).
  Definition raise {A} (e : exn) : M A := fun h => (Raise e, h).
  Definition bind {A B} (m : M A) (k : A -> M B) : M B :=
    fun h => match m h with
             | (Ok a, h') => k a h'
             | (Raise e, h') => (Raise e, h')
             end.
  (** Reading an attribute. *)
  Definition gets {A} (f : heap -> A) : M A := fun h => (Ok (f h), h).
  (** Assignment. *)
  Definition modify (f : heap -> heap) : M unit := fun h => (Ok tt, f h).
  (** Use of a pure expression that may raise. *)
  Definition lift {A} (r : res A) : M A := fun h => (r, h).

  (** `for x in l: body(x)`; [l] is the list at loop entry (the modelled loops
      never change the list they iterate over). *)
  Fixpoint for_each {A} (l : list A) (body : A -> M unit) : M unit :=
    match l with
    | [] => ret tt
    | x :: r => bind (body x) (fun _ => for_each r body)
    end.

  (** List comprehension with effects. *)
  Fixpoint map_each {A B} (l : list A) (body : A -> M B) : M (list B) :=
    match l with
    | [] => ret []
    | x :: r => bind (body x) (fun y => bind (map_each r body) (fun ys => ret (y :: ys)))
    end.

  (** Grid.__init__, grid.py:21-38: a new empty grid (and no other objects). *)
  Definition empty_heap : heap :=
    mkHeap (fun _ => (-1)%Z) (fun _ => (val0, val0, val0)) (fun _ => rnd (val0, val0, val0))
      (fun _ => []) (fun _ => []) (fun _ => false)
      (fun _ => (-1)%Z) (fun _ => []) (fun _ => [])
      (fun _ => (-1)%Z) (fun _ => []) (fun _ => []) (fun _ => []) (fun _ => None) (fun _ => None)
      (fun _ => (-1)%Z) (fun _ => []) (fun _ => []) (fun _ => []) (fun _ => []) (fun _ => false)
      0 0 0 0 [] [] [] [] [] [] 0.

  (* ---------------------------------------------------------------- *)
  (** ** Object creation *)

  (** Node(p), node.py:17-36. *)
  Definition new_node (p : pt) : M nat := fun h =>
    let k := next_n h in
    let h := set_n_glo h (upd (n_glo h) k (-1)%Z) in
    let h := set_n_p h (upd (n_p h) k p) in
    let h := set_n_rc h (upd (n_rc h) k (rnd p)) in
    let h := set_n_edges h (upd (n_edges h) k []) in
    let h := set_n_faces h (upd (n_faces h) k []) in
    let h := set_n_border h (upd (n_border h) k false) in
    let h := set_next_n h (S k) in
    (Ok k, h).

  (** Edge(), edge.py:15-25. *)
  Definition new_edge : M nat := fun h =>
    let k := next_e h in
    let h := set_e_glo h (upd (e_glo h) k (-1)%Z) in
    let h := set_e_nodes h (upd (e_nodes h) k []) in
    let h := set_e_faces h (upd (e_faces h) k []) in
    let h := set_next_e h (S k) in
    (Ok k, h).

  (** Face(variables, values), face.py:18-37, given `dict(zip(variables, values))`;
      a fresh face has no bfs_mark attribute. *)
  Definition new_face (data : dict str val) : M nat := fun h =>
    let k := next_f h in
    let h := set_f_glo h (upd (f_glo h) k (-1)%Z) in
    let h := set_f_data h (upd (f_data h) k data) in
    let h := set_f_nodes h (upd (f_nodes h) k []) in
    let h := set_f_edges h (upd (f_edges h) k []) in
    let h := set_f_zone h (upd (f_zone h) k None) in
    let h := set_f_mark h (upd (f_mark h) k None) in
    let h := set_next_f h (S k) in
    (Ok k, h).

  (** Zone(name), zone.py:16-33. *)
  Definition new_zone (name : str) : M nat := fun h =>
    let k := next_z h in
    let h := set_z_id h (upd (z_id h) k (-1)%Z) in
    let h := set_z_name h (upd (z_name h) k name) in
    let h := set_z_nodes h (upd (z_nodes h) k []) in
    let h := set_z_edges h (upd (z_edges h) k []) in
    let h := set_z_faces h (upd (z_faces h) k []) in
    let h := set_z_fixed h (upd (z_fixed h) k false) in
    let h := set_next_z h (S k) in
    (Ok k, h).
End Heap.

Notation "x <- m ;; k" := (bind m (fun x => k))
  (at level 61, m at next level, right associativity).
Notation "m ;;; k" := (bind m (fun _ => k))
  (at level 61, right associativity).
