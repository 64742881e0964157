(** Model of the decomposition of a grid file (case_002_decompose of test.py) and of the
    replacement of its data (case_007_store_load_faces_calc_data). *)

From Coq Require Import ZArith Ascii String Bool List.
From Verif Require Import Py Heap GridModel GridIO Driver Import.
Import ListNotations.
Open Scope list_scope.

Section Redivide.
  Context {F : FloatOps}.

  (** `g.load(text); g.decompose_...(...); g.store(out)`, test.py:51-76: [d] is the call of the
      decomposition; the result is the text of the stored file.  The same grid object is used for
      all decompositions, so it may hold anything before. *)
  Definition redivide (d : M unit) (text : str) : M str :=
    load true text ;;;
    d ;;;
    h <- gets (fun h => h) ;;
    lift (store h).

  (** case_007_store_load_faces_calc_data, test.py:105-120: the text of the stored grid file.  The
      random numbers are those of Import.v. *)
  Definition redraw (add : val -> val -> val) (rand : nat -> val * val * val) (text : str) : M str :=
    modify new_grid ;;;
    load true text ;;;
    t <- gets (store_faces_calc_data add rand) ;;
    load_faces_calc_data t ;;;
    h <- gets (fun h => h) ;;
    lift (store h).
End Redivide.
