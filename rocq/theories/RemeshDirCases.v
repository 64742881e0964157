(** A json file for the example of C131. *)

From Coq Require Import ZArith Reals Ascii String Bool List.
From Verif Require Import Py Heap Remesh RemeshMore Programs Options OptionsSpec OptionsProofs.
Import ListNotations.
Open Scope list_scope.

Definition ice_json : json R := JObj [(lit "remesh_nsteps_min", JInt 2); (lit "remesh_nsteps_max", JInt 2); (lit "remesh_nsmooth_steps", JInt 1); (lit "remesh_hsmooth_steps", JInt 1)].

Lemma ice_program : forall {F : FloatOps} real near text h, remesh_program real near (Some ice_json) false text h = remesh_file real near true (two_steps true) text h.
Proof.
  intros F real near text h. destruct (remesh_options_used real near [(lit "remesh_nsteps_min", JInt 2); (lit "remesh_nsteps_max", JInt 2); (lit "remesh_nsmooth_steps", JInt 1); (lit "remesh_hsmooth_steps", JInt 1)] false text h) as (fixn & o & A & B & C).
  { split; repeat constructor. }
  unfold ice_json. rewrite C. assert (fixn = true) as -> by exact B. 
  assert (o = two_steps true) as ->; [|reflexivity]. destruct o as [x1 x2 x3 x4 x5 x6 x7 x8 x9 x10 x11 x12 x13]. unfold read_fields in A. destruct A as (A1 & A2 & A3 & A4 & A5 & A6 & A7 & A8 & A9 & A10 & A11 & A12 & A13).
  assert (B1 : x1 = 2%Z) by exact A1. assert (B2 : x2 = 2%Z) by exact A2. assert (B3 : x3 = (1 / 10)%R) by exact A3. assert (B4 : x4 = (5 / 100)%R) by exact A4.
  assert (B5 : x5 = 1%Z) by exact A5. assert (B6 : x6 = 10%R) by exact A6. assert (B7 : x7 = (15 / 100)%R) by exact A7. assert (B8 : x8 = 1%Z) by exact A8.
  assert (B9 : x9 = (2 / 10)%R) by exact A9. assert (B10 : x10 = (1 / 10)%R) by exact A10. assert (B11 : x11 = true) by exact A11. assert (B12 : x12 = 0%Z) by exact A12.
  assert (B13 : x13 = false) by exact A13. unfold two_steps. rewrite B1, B2, B3, B4, B5, B6, B7, B8, B9, B10, B11, B12, B13. reflexivity.
Qed.
