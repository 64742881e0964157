(** Specification vocabulary for the cycle split - solver - merge. *)

From Coq Require Import ZArith Bool List Permutation.
From Verif Require Import Py Heap Mpi FileSpec DriverSpec.
Import ListNotations.
Open Scope list_scope.

Section CycleSpec.
  Context {F : FloatOps}.

  (** The file [m] for the solver has at place [k] of its list of nodes the point [p]. *)
  Definition cry_node (m : mpi_file) (k : Z) (p : pt) : Prop :=
    exists xs ys zs, mf_coords m = [xs; ys; zs] /\ (0 <= k)%Z /\
      let '(x, y, z) := p in
      nth_error xs (Z.to_nat k) = Some x /\ nth_error ys (Z.to_nat k) = Some y /\ nth_error zs (Z.to_nat k) = Some z.

  (** The [j]-th face of the file has the number [g] and its corners are [ps]. *)
  Definition cry_face (m : mpi_file) (j : nat) (g : Z) (ps : list pt) : Prop :=
    nth_error (mf_gloids m) j = Some g /\
    exists ks, nth_error (mf_fn m) j = Some ks /\ Forall2 (cry_node m) ks ps.

  (** The solver, given the file [m], writes the text [t] with the rows [tab]: one row of
      values of the variables [vars] for every face of [m], labelled by its number, in any
      order. *)
  Definition computed (vars : list str) (m : mpi_file) (t : str) (tab : list (Z * list val)) : Prop :=
    calc_file t vars tab /\ Permutation (map fst tab) (mf_gloids m) /\
    forall r, In r tab -> length (snd r) = length vars.
End CycleSpec.
