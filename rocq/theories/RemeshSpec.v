(** Specification vocabulary for remeshing. *)

From Coq Require Import ZArith Reals List.
From Verif Require Import Py Geom Remesh.
Import ListNotations.
Open Scope R_scope.

(** Sum of [f x] over a list. *)
Fixpoint total {A} (f : A -> R) (l : list A) : R :=
  match l with [] => 0 | x :: r => f x + total f r end.

(** The faces of the grid are different objects, and inner edges join faces of the
    grid. *)
Definition plain_topo (g : topo) : Prop :=
  NoDup (faces g) /\ NoDup (nodes g) /\
  (forall e f1 f2, In e (edges g) -> e_faces g e = [f1; f2] -> In f1 (faces g) /\ In f2 (faces g)) /\
  (forall n f, In n (nodes g) -> In f (n_faces g n) -> In f (faces g)).

(** The two faces of an inner edge: first the one with more ice (heights [h]), then the
    one with less; [None] for other edges. *)
Definition sides (h : nat -> R) (g : topo) (e : nat) : option (nat * nat) :=
  match e_faces g e with
  | [a; b] => Some (if Rlt_dec (h a) (h b) then (b, a) else (a, b))
  | _ => None
  end.

(** Ice that [f] gives over the edges [es] if the amount [q e] goes over the edge [e]
    from the face with more ice to the face with less, and ice that it takes. *)
Definition given (h : nat -> R) (g : topo) (q : nat -> R) (f : nat) (es : list nat) : R :=
  total (fun e => match sides h g e with Some (u, _) => if Nat.eq_dec u f then q e else 0 | None => 0 end) es.
Definition taken (h : nat -> R) (g : topo) (q : nat -> R) (f : nat) (es : list nat) : R :=
  total (fun e => match sides h g e with Some (_, l) => if Nat.eq_dec l f then q e else 0 | None => 0 end) es.

(** No ice is negative. *)
Definition ice_ok (g : topo) (s : st) : Prop :=
  forall f, In f (faces g) -> 0 <= f_chunk s f /\ 0 <= f_height s f.

(** A face is on at most three edges. *)
Definition three_edges (g : topo) : Prop :=
  forall f, In f (faces g) -> (length (filter (fun e => existsb (Nat.eqb f) (e_faces g e)) (edges g)) <= 3)%nat.

(** Fields that smoothing of heights leaves as they are. *)
Definition same_rest (s s' : st) : Prop :=
  n_pos s' = n_pos s /\ n_dir s' = n_dir s /\ n_move s' = n_move s /\ f_hi s' = f_hi s /\ f_target s' = f_target s /\
  f_rest s' = f_rest s /\ f_actual s' = f_actual s /\ f_dir s' = f_dir s /\ f_saved s' = f_saved s.

(** With [n] steps the face grows by too much at one step: the height over [n] is not
    below the given part of the shortest side. *)
Definition too_fast (o : options) (g : topo) (s : st) (n : Z) (f : nat) : Prop :=
  nsteps_hi_side_fact o * min_side (get_triangle g s f) * IZR n <= f_hi s f.

(** [l'] is the sublist of the items of [l] with the property [P]. *)
Inductive selected {A} (P : A -> Prop) : list A -> list A -> Prop :=
| sel_nil : selected P [] []
| sel_yes : forall x l l', P x -> selected P l l' -> selected P (x :: l) (x :: l')
| sel_no : forall x l l', ~ P x -> selected P l l' -> selected P (x :: l) l'.

(** A grid as a remesher expects it: all lists have elements, corners of faces are nodes of
    the grid, and every node is on some face. *)
Definition whole (g : topo) : Prop :=
  plain_topo g /\ faces g <> [] /\ edges g <> [] /\
  (forall f a b c, In f (faces g) -> f_nodes g f = (a, b, c) -> In a (nodes g) /\ In b (nodes g) /\ In c (nodes g)) /\
  (forall n, In n (nodes g) -> n_faces g n <> []).

(** All faces have area and lie in parallel planes with the normal [n]. *)
Definition flat (g : topo) (s : st) (n : vect) : Prop :=
  forall f, In f (faces g) -> normal_orth (get_triangle g s f) = Ok n.

(** 1 + 1/2 + ... + 1/k. *)
Fixpoint harmonic (k : nat) : R :=
  match k with O => 0 | S j => 1 / INR k + harmonic j end.

(** Steps one after another: the list has the state at the start of every step, with
    the chunks of this step. *)
Inductive history (o : options) (g : topo) : nat -> st -> list st -> st -> Prop :=
| hist_end : forall s, history o g 0 s [] s
| hist_step : forall k s s1 s2 l s', calc_ice_chunks g (Z.of_nat (S k)) s = Ok s1 -> remesh_step o g s1 = Ok s2 ->
    history o g k s2 l s' -> history o g (S k) s (s1 :: l) s'.

