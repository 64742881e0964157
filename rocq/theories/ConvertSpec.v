(** Specification vocabulary for converters. *)

From Coq Require Import ZArith Reals List Permutation String.
From Verif Require Import Py Geom Drops DropsSpec.
Import ListNotations.
Open Scope list_scope.

(** ** Nearest neighbour transfer *)

(** [e] is one of the items of [l] nearest to [p]. *)
Definition nearest {A} (at_ : A -> vect) (l : list A) (p : vect) (e : A) : Prop :=
  In e l /\ forall x, In x l -> (dist_to (at_ e) p <= dist_to (at_ x) p)%R.

(** The mean of the corners of a face. *)
Definition middle (f : dface) : vect :=
  (V3 ((vx (df_a f) + vx (df_b f) + vx (df_c f)) / 3)
      ((vy (df_a f) + vy (df_b f) + vy (df_c f)) / 3)
      ((vz (df_a f) + vz (df_b f) + vz (df_c f)) / 3))%R.

(** Face [g] is face [f] with no change except that of the fields [ks]. *)
Definition only_changes (ks : list str) (f g : dface) : Prop :=
  same_place f g /\ forall k, ~ In k ks -> dget str_dec (df_data g) k = dget str_dec (df_data f) k.

(** ** Structured blocks *)

(** The number (from 1) of the node in column [a] and row [b] of a block with [zi] columns. *)
Definition node_no (zi a b : nat) : nat := S (a + b * zi).

(** The number (from 0) of the cell with the lower corner in column [i] and row [j]:
    columns change first, as for nodes. *)
Definition cell_no (zi i j : nat) : nat := i + j * (zi - 1).

(** The directed edges of a triangle. *)
Definition edges3 (t : nat * nat * nat) : list (nat * nat) :=
  let '(a, b, c) := t in [(a, b); (b, c); (c, a)].

(** Three different corners. *)
Definition proper (t : nat * nat * nat) : Prop :=
  let '(a, b, c) := t in a <> b /\ b <> c /\ c <> a.

(** The two triangles of a cell: both halves of the diagonal from (i, j) to (i+1, j+1). *)
Definition lower_half (zi i j : nat) : nat * nat * nat :=
  (node_no zi i j, node_no zi i (j + 1), node_no zi (i + 1) (j + 1)).
Definition upper_half (zi i j : nat) : nat * nat * nat :=
  (node_no zi i j, node_no zi (i + 1) (j + 1), node_no zi (i + 1) j).

(** What the text [dst] of the written file is for the text [src] of the solution file:
    the same text for the first five variables, the text of the opposite number
    ([neg] is str(-float(.))) for the others. *)
Definition carries (neg : str -> res str) (v : nat) (src dst : option str) : Prop :=
  match src with
  | None => dst = None
  | Some e => if Nat.ltb v 5 then dst = Some e else exists x, neg e = Ok x /\ dst = Some x
  end.

(** The names of the two files of a block. *)
Definition grid_name (b : str) : str := lit "TEC_WALL_Grid_" ++ b.
Definition solution_name (b : str) : str := lit "TEC_WALL_Solution_" ++ b.

(** ** Quads *)

Definition quad : Type := nat * nat * nat * nat.
Definition corners (q : quad) : list nat := let '(a, b, c, d) := q in [a; b; c; d].
Definition corners3 (t : nat * nat * nat) : list nat := let '(a, b, c) := t in [a; b; c].

(** The boundary of a quad in its order and in the opposite order. *)
Definition boundary (q : quad) : list (nat * nat) := let '(a, b, c, d) := q in [(a, b); (b, c); (c, d); (d, a)].
Definition backwards (l : list (nat * nat)) : list (nat * nat) := map (fun e => (snd e, fst e)) l.
Definition oriented (reversed : bool) (q : quad) : list (nat * nat) := if reversed then backwards (boundary q) else boundary q.

(** The diagonals of a quad. *)
Definition diagonal (q : quad) (x y : nat) : Prop :=
  let '(a, b, c, d) := q in In (x, y) [(a, c); (c, a); (b, d); (d, b)].

(** Real edges: those between different nodes. *)
Definition real_edges (l : list (nat * nat)) : list (nat * nat) := filter (fun e => negb (Nat.eqb (fst e) (snd e))) l.

(** Two corners that follow each other coincide. *)
Definition pinched (q : quad) : Prop := let '(a, b, c, d) := q in a = b \/ b = c \/ c = d \/ d = a.

(** ** Tables *)

Definition cell {A} (t : list (list A)) (i j : nat) : option A :=
  match nth_error t i with Some r => nth_error r j | None => None end.
Definition shaped {A} (n m : nat) (t : list (list A)) : Prop := List.length t = n /\ Forall (fun r => List.length r = m) t.

(** ** Points *)

Definition vsum (l : list vect) : vect := fold_right vadd (V3 0 0 0) l.
Definition mean (l : list vect) : vect := vmul (vsum l) (/ INR (List.length l)).

(** Zones that are not empty, have no repeated nodes and no common nodes. *)
Definition apart (zones : list (list nat)) : Prop :=
  Forall (fun z => z <> [] /\ NoDup z) zones /\ ForallOrdPairs (fun z w => forall n, In n z -> ~ In n w) zones.

