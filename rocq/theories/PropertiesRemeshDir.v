(** Properties of the program remesh.py over files: C131.

    Model: RemeshDir.v (with Options.v, Programs.v).  Specification vocabulary: RemeshDirSpec.v,
    ProgramsSpec.v. *)

From Coq Require Import ZArith Reals Ascii String Bool Lia Lra List.
From Verif Require Import Py TextLemmas Heap GridModel GridIO Samples Programs ProgramsSpec ProgramsCases Options RemeshDir RemeshDirSpec RemeshDirProofs RemeshDirCases PropertiesPrograms.
From Verif Require Remesh RemeshMore.
Import ListNotations.
Open Scope list_scope.
Open Scope nat_scope.

(** C131.  With -d and -o, two directories, every grid *.dat of the first is remeshed for itself
    and its result is in the second, under its name without '_r_', if no two grids have one name
    there ... *)
Theorem C131_results : forall {F : FloatOps} real near f left s o listing d d', s <> [] -> o <> [] -> Forall no_slash listing ->
  parts s <> parts o -> NoDup (map renamed (grids_of listing)) -> remesh_main (mesh_job real near f) left (Dir s) o listing d = (Ok tt, d') ->
  forall n, In n (grids_of listing) -> exists text out, d (file_in s n) = Some text /\ fst (remesh_program real near f false text empty_heap) = Ok out /\
    d' (file_in o (renamed n)) = Some out.
Proof. intros F real near f left s o listing d d' Hs Ho Hn. exact (dir_results s o listing Hs Ho Hn (mesh_job real near f) left d d'). Qed.
Print Assumptions C131_results.

(** ... and the program ends well if every grid alone does. *)
Theorem C131_succeeds : forall {F : FloatOps} real near f left s o listing d, s <> [] -> o <> [] -> Forall no_slash listing -> parts s <> parts o ->
  (forall n, In n (grids_of listing) -> exists text out, d (file_in s n) = Some text /\ fst (remesh_program real near f false text empty_heap) = Ok out) ->
  fst (remesh_main (mesh_job real near f) left (Dir s) o listing d) = Ok tt.
Proof. intros F real near f left s o listing d Hs Ho Hn. exact (dir_succeeds s o listing Hs Ho Hn (mesh_job real near f) left d). Qed.
Print Assumptions C131_succeeds.

(** No other file is changed, however the program ends: neither the grids nor files of the
    second directory with other names. *)
Theorem C131_others : forall {F : FloatOps} real near f left s o listing d p, s <> [] -> o <> [] -> Forall no_slash listing ->
  (forall n, In n (grids_of listing) -> p <> file_in o (renamed n)) -> snd (remesh_main (mesh_job real near f) left (Dir s) o listing d) p = d p.
Proof. intros F real near f left s o listing d p Hs Ho Hn. exact (dir_others s o listing Ho Hn (mesh_job real near f) left d p). Qed.
Print Assumptions C131_others.

(** The first grid that cannot be remeshed stops the program: the results of the grids before
    it stay, the grids after it are not remeshed. *)
Theorem C131_stops : forall {F : FloatOps} real near f left s o listing a n b d text e, s <> [] -> o <> [] -> Forall no_slash listing ->
  grids_of listing = a ++ n :: b -> parts s <> parts o -> NoDup (map renamed (grids_of listing)) ->
  (forall k, In k a -> exists t r, d (file_in s k) = Some t /\ fst (remesh_program real near f false t empty_heap) = Ok r) ->
  d (file_in s n) = Some text -> fst (remesh_program real near f false text empty_heap) = Raise e ->
  exists d', remesh_main (mesh_job real near f) left (Dir s) o listing d = (Raise e, d') /\
    (forall k, In k a -> exists t r, d (file_in s k) = Some t /\ fst (remesh_program real near f false t empty_heap) = Ok r /\ d' (file_in o (renamed k)) = Some r) /\
    (forall k, In k b -> d' (file_in o (renamed k)) = d (file_in o (renamed k))).
Proof. intros F real near f left s o listing a n b d text e Hs Ho Hn. exact (dir_stops s o listing Hs Ho Hn (mesh_job real near f) left a n b d text e). Qed.
Print Assumptions C131_stops.

(** Two grids whose names differ in '_r_' only have one file of the result: that of the first
    is lost, without any message. *)
Theorem C131_two_grids_one_file : forall {F : FloatOps} real near f left d t1 t2 r1 r2,
  d (file_in (lit "in") (lit "a_r_b.dat")) = Some t1 -> d (file_in (lit "in") (lit "a_b.dat")) = Some t2 ->
  fst (remesh_program real near f false t1 empty_heap) = Ok r1 -> fst (remesh_program real near f false t2 empty_heap) = Ok r2 ->
  exists d', remesh_main (mesh_job real near f) left (Dir (lit "in")) (lit "out") [lit "a_r_b.dat"; lit "a_b.dat"] d = (Ok tt, d') /\
    d' (file_in (lit "out") (lit "a_b.dat")) = Some r2 /\ forall p, p <> file_in (lit "out") (lit "a_b.dat") -> d' p = d p.
Proof. intros F real near f left. exact (two_meet (mesh_job real near f) left). Qed.
Print Assumptions C131_two_grids_one_file.

(** If the results go to the directory of the grids, the second grid is replaced before it is
    read: its name then has the first grid, remeshed twice. *)
Theorem C131_one_directory : forall {F : FloatOps} real near f left d t1 t2 r1 r2,
  d (file_in (lit "in") (lit "a_r_b.dat")) = Some t1 -> d (file_in (lit "in") (lit "a_b.dat")) = Some t2 ->
  fst (remesh_program real near f false t1 empty_heap) = Ok r1 -> fst (remesh_program real near f false r1 empty_heap) = Ok r2 ->
  exists d', remesh_main (mesh_job real near f) left (Dir (lit "in")) (lit "in") [lit "a_r_b.dat"; lit "a_b.dat"] d = (Ok tt, d') /\
    d' (file_in (lit "in") (lit "a_b.dat")) = Some r2.
Proof. intros F real near f left. exact (same_dir (mesh_job real near f) left). Qed.
Print Assumptions C131_one_directory.

(** Names without '_r_' do not meet in the directory of results. *)
Theorem C131_plain_names : forall listing, NoDup listing -> (forall n, In n listing -> contains (lit "_r_") n = false) -> NoDup (map renamed (grids_of listing)).
Proof. exact plain_names. Qed.
Print Assumptions C131_plain_names.

(** With -g the result of the grid, and nothing else, is stored in the directory of -o, under the
    name of the grid without its directory and without '_r_'. *)
Theorem C131_one : forall {F : FloatOps} real near f left n o listing d text out, o <> [] -> no_slash n -> ends_with (lit ".dat") n = true ->
  fst (remesh_program real near f false text empty_heap) = Ok out ->
  forall g, (g = n /\ d (parts g) = Some text \/ exists s, s <> [] /\ g = s ++ lit "/" ++ n /\ d (file_in s n) = Some text) ->
  exists d', remesh_main (mesh_job real near f) left (One g) o listing d = (Ok tt, d') /\
    d' (file_in o (renamed n)) = Some out /\ forall q, q <> file_in o (renamed n) -> d' q = d q.
Proof.
  intros F real near f left n o listing d text out Ho S E J g [(-> & D)|(s & Hs & -> & D)];
    [exact (one_plain (mesh_job real near f) left n o listing d text out Ho S E D J)|exact (one_deep (mesh_job real near f) left s n o listing d text out Ho Hs S E D J)].
Qed.
Print Assumptions C131_one.

(** With -g and without -o a grid of the working directory whose name has no '_r_' is replaced
    by its result. *)
Theorem C131_grid_replaced : forall {F : FloatOps} real near f left g listing d text out, no_slash g -> ends_with (lit ".dat") g = true -> contains (lit "_r_") g = false ->
  d (parts g) = Some text -> fst (remesh_program real near f false text empty_heap) = Ok out ->
  exists d', remesh_main (mesh_job real near f) left (One g) (lit ".") listing d = (Ok tt, d') /\ d' (parts g) = Some out.
Proof. intros F real near f left. exact (one_replaced (mesh_job real near f) left). Qed.
Print Assumptions C131_grid_replaced.

(** A file of -g with another extension is passed over: nothing is done and nothing raised,
    even if there is no such file. *)
Theorem C131_passed_over : forall {F : FloatOps} real near f left g o listing d, ends_with (lit ".dat") g = false ->
  remesh_main (mesh_job real near f) left (One g) o listing d = (Ok tt, d).
Proof. intros F real near f left. exact (one_skipped (mesh_job real near f) left). Qed.
Print Assumptions C131_passed_over.

(** All conditions of the first theorem together: a directory with a grid and another file. *)
Example C131_example : let d p := if path_dec p (file_in (lit "in") (lit "w_r_1.dat")) then Some ice_text else None in
  exists d', remesh_main (mesh_job (F := ZOps) zreal znear (Some ice_json)) (fun _ t => t) (Dir (lit "in")) (lit "out") [lit "notes.txt"; lit "w_r_1.dat"] d = (Ok tt, d') /\
    Forall no_slash [lit "notes.txt"; lit "w_r_1.dat"] /\ parts (lit "in") <> parts (lit "out") /\ NoDup (map renamed (grids_of [lit "notes.txt"; lit "w_r_1.dat"])) /\
    d' (file_in (lit "out") (lit "w_1.dat")) <> None.
Proof.
  cbv zeta. destruct C82_example as (out & h' & E & _).
  assert (J : mesh_job (F := ZOps) zreal znear (Some ice_json) ice_text = Ok out).
  { unfold mesh_job. rewrite ice_program, E. reflexivity. }
  unfold remesh_main. change (meshes_of (Dir (lit "in")) [lit "notes.txt"; lit "w_r_1.dat"]) with [lit "in/w_r_1.dat"]. cbn [remesh_meshes].
  change (parts (lit "in/w_r_1.dat")) with (file_in (lit "in") (lit "w_r_1.dat")).
  match goal with |- context [if path_dec ?p ?p then _ else _] => destruct (path_dec p p) as [_|N]; [|congruence] end. rewrite J.
  eexists. split; [reflexivity|]. split; [repeat constructor|]. split; [discriminate|]. split; [repeat constructor; intros []|].
  change (file_in (lit "out") (lit "w_1.dat")) with (parts (remesh_name (lit "out") (lit "in/w_r_1.dat"))). rewrite put_at. discriminate.
Qed.
