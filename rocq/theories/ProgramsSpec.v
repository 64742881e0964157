(** Specification vocabulary for the programs that read a grid file and store another
    one. *)

From Coq Require Import ZArith Reals Ascii String List.
From Verif Require Import Py Heap.
Import ListNotations.
Open Scope list_scope.

Section ProgramsSpec.
  Context {F : FloatOps}.

  (** The grid [h'] has the title, the zones with their names and the faces of the grid
      [h], in the same order; its corners are at [pos], its faces have the variables
      [vars] with the values [value]. *)
  Definition same_surface (pos : nat -> pt) (vars : list str) (value : nat -> str -> val) (h h' : heap) : Prop :=
    g_name h' = g_name h /\ length (g_zones h') = length (g_zones h) /\ length (g_faces h') = length (g_faces h) /\
    forall i z z', nth_error (g_zones h) i = Some z -> nth_error (g_zones h') i = Some z' ->
      z_name h' z' = z_name h z /\ length (z_faces h' z') = length (z_faces h z) /\
      forall k f f', nth_error (z_faces h z) k = Some f -> nth_error (z_faces h' z') k = Some f' ->
        map (n_p h') (f_nodes h' f') = map pos (f_nodes h f) /\
        keys (f_data h' f') = vars /\
        forall v, In v vars -> dget str_dec (f_data h' f') v = Some (value f v).

  (** The list of variables, with the given one added at the end if it is not there. *)
  Definition with_var (k : str) (vars : list str) : list str := if in_dec str_dec k vars then vars else vars ++ [k].

  (** Positions of the nodes of the grid that differ after rounding. *)
  Definition apart (pos : nat -> pt) (h : heap) : Prop :=
    forall a b, In a (g_nodes h) -> In b (g_nodes h) -> rnd (pos a) = rnd (pos b) -> a = b.
End ProgramsSpec.

From Verif Require Import GridSpec FileSpec.

Section UsedPoints.
  Context {F : FloatOps}.

  (** The point is, after rounding, a corner of some face of the file. *)
  Definition used (zs : list zone_rec) (p : pt) : Prop := exists t, In t (file_faces zs) /\ In (rnd p) t.
End UsedPoints.

(** A name without directories. *)
Definition no_slash (s : str) : Prop := existsb (Ascii.eqb "/"%char) s = false.
