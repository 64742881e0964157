(** Specification vocabulary for the air file and the file of trajectories. *)

From Coq Require Import ZArith Reals List String.
From Verif Require Import Py Heap GridSpec FileSpec Geom.
Import ListNotations.
Open Scope list_scope.
Open Scope nat_scope.

(** Word number [i] of a line. *)
Definition nth_word (l : str) (i : nat) : option str := nth_error (split_ws l) i.

(** Word number [i] of a line is an integer. *)
Definition int_word (l : str) (i : nat) (n : nat) : Prop :=
  exists s, nth_word l i = Some s /\ py_int s = Ok (Z.of_nat n).

(** Lines of an air file: a line that is neither a head line nor the line of a zone ... *)
Definition mentions (k : string) (l : str) : Prop := contains (lit k) l = true.

(** ... the line of a zone ... *)
Definition zone_head (l : str) : Prop := ~ mentions "TITLE=" l /\ ~ mentions "VARIABLES=" l /\ mentions "ZONE" l.

(** ... of bricks: the second word names FEBRICK, the seventh and the tenth are the numbers
    of nodes and of elements ... *)
Definition brick_head (l : str) (n e : nat) : Prop :=
  zone_head l /\ (exists w, nth_word l 1 = Some w /\ mentions "FEBRICK" w) /\ int_word l 6 n /\ int_word l 9 e.

(** ... of something else: the sixth and the ninth words are the numbers. *)
Definition other_head (l : str) (n e : nat) : Prop :=
  zone_head l /\ (exists w, nth_word l 1 = Some w /\ ~ mentions "FEBRICK" w) /\ int_word l 5 n /\ int_word l 8 e.

(** The row of a node: point in the words 1, 2, 3, velocity in the words 6, 7, 8. *)
Definition num_word (fl : str -> res R) (l : str) (i : nat) (x : R) : Prop :=
  exists s, nth_word l i = Some s /\ fl s = Ok x.
Definition sample_row (fl : str -> res R) (l : str) (s : vect * vect) : Prop :=
  num_word fl l 0 (vx (fst s)) /\ num_word fl l 1 (vy (fst s)) /\ num_word fl l 2 (vz (fst s)) /\
  num_word fl l 5 (vx (snd s)) /\ num_word fl l 6 (vy (snd s)) /\ num_word fl l 7 (vz (snd s)).

(** [air_form fl ls ds]: the lines are an air file whose zones of bricks have the samples
    [ds] in this order. *)
Inductive air_form (fl : str -> res R) : list str -> list (vect * vect) -> Prop :=
| air_end : air_form fl [] []
| air_title : forall l ls ds, mentions "TITLE=" l -> air_form fl ls ds -> air_form fl (l :: ls) ds
| air_vars : forall l ls ds, mentions "VARIABLES=" l -> air_form fl ls ds -> air_form fl (l :: ls) ds
| air_noise : forall l ls ds, ~ mentions "TITLE=" l -> ~ mentions "VARIABLES=" l -> ~ mentions "ZONE" l ->
    air_form fl ls ds -> air_form fl (l :: ls) ds
| air_brick : forall l rows links ls samples ds,
    brick_head l (List.length rows) (List.length links) -> Forall2 (sample_row fl) rows samples ->
    air_form fl ls ds -> air_form fl (l :: rows ++ links ++ ls) (samples ++ ds)
| air_other : forall l rows links ls ds,
    other_head l (List.length rows) (List.length links) ->
    air_form fl ls ds -> air_form fl (l :: rows ++ links ++ ls) ds.

(** The legs of a trajectory of [n] points, as triangles with two equal corners. *)
Definition legs (n : nat) : list (nat * nat * nat) := map (fun i => (i, i + 1, i + 1)) (seq 0 (n - 1)).

Section Trajectories.
  Context {F : FloatOps}.
  (** [rd x]: the number read from the text written for [x]. *)
  Variable rd : R -> val.

  (** The zone of the file for a trajectory of the face with the number [g]. *)
  Definition drawn (g : Z) (tr : list vect) : zone_rec :=
    mkZone (lit "Trajectory-" ++ Z_str g) [] (map (fun p => (rd (vx p), rd (vy p), rd (vz p))) tr)
      (repeat [] (List.length tr - 1)) (legs (List.length tr)).
End Trajectories.
