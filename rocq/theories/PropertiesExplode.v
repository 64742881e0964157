(** Properties of the explosion of a grid from file to file: C111.

    Model: Explode.v (with GridIO.v, Convert.v, GridModel.v).  Specification vocabulary:
    ExplodeSpec.v, FileSpec.v, StoreSpec.v, DriverSpec.v. *)

From Coq Require Import ZArith Reals Ascii String Bool Lia List.
From Verif Require Import Py Heap GridModel GridSpec DecompSpec DecompMain GridIO FileSpec StoreSpec DriverSpec Samples SamplesIO SamplesStore Geom GeomSpec Programs ProgramsCases
  Explode ExplodeSpec ExplodeProofs ExplodeCase ExplodeCases.
Import ListNotations.
Open Scope list_scope.
Open Scope nat_scope.

(* ================================================================== *)
(** C111.  A file whose zones all have faces, none of them degenerate, and no coinciding
    points within a zone is exploded into a file with the same title and the same zones in
    the same order.  Each zone keeps its name, variables, values and faces and is moved as a
    whole by [k] times the vector from the mean of all points of the file to the mean of the
    corners of the zone; points that are not corners disappear. *)
Theorem C111_moved : forall {F : FloatOps} real near k text h h1 evs vars, faithful_numbers ->
  load false text h = (Ok tt, h1) -> file_form [] (file_lines text) evs ->
  no_degenerate (zones_of evs) -> (forall zr, In zr (zones_of evs) -> NoDup (map rnd (zr_pts zr))) ->
  title_in evs <> None \/ plain_name (g_name h) ->
  zones_of evs <> [] -> (forall zr, In zr (zones_of evs) -> zr_conn zr <> [] /\ zr_vars zr = vars) -> NoDup vars ->
  exists out h' evs', explode_file real near k text h = (Ok out, h') /\ file_form [] (file_lines out) evs' /\
    title_in evs' = Some (g_name h1) /\
    Forall2 (fun zr zr' => moved_zone real near (way real k (zones_of evs) zr) zr zr') (zones_of evs) (zones_of evs').
Proof. exact @explode_ok. Qed.
Print Assumptions C111_moved.

Example C111_example : let evs := [ETitle (lit "plate"); EZone zoneA; EZone zoneB] in
  @faithful_numbers ZOps /\ load false two_zones empty_heap = (Ok tt, torn) /\ file_form [] (file_lines two_zones) evs /\
  no_degenerate (zones_of evs) /\ (forall zr, In zr (zones_of evs) -> NoDup (map rnd (zr_pts zr))) /\ title_in evs <> None /\
  zones_of evs <> [] /\ (forall zr, In zr (zones_of evs) -> zr_conn zr <> [] /\ zr_vars zr = [lit "T"; lit "Hw"]) /\ NoDup [lit "T"; lit "Hw"] /\
  way zreal 2 (zones_of evs) zoneB <> V3 0 0 0.
Proof.
  split; [exact Z_faithful|]. split; [exact torn_run|]. split; [exact two_zones_form|]. split; [exact two_zones_nd|].
  split; [exact plate_separate|]. split; [discriminate|]. split; [discriminate|]. split.
  { intros zr [<-|[<-|[]]]; split; try reflexivity; discriminate. }
  split; [|exact plate_way]. constructor; [intros [K|[]]; discriminate K|]. constructor; [intros []|constructor].
Qed.

(** C111.  With exact numbers the zones keep their shape: differences of points of a zone
    are not changed by the move. *)
Theorem C111_shape : forall {F : FloatOps} real near s p q, (forall x, real (near x) = x) ->
  vsub (vector real (moved real near s p)) (vector real (moved real near s q)) = vsub (vector real p) (vector real q).
Proof. exact @moved_shape. Qed.
Print Assumptions C111_shape.

(** C111.  The whole pipeline of the test case: whenever the hierarchical decomposition of
    the loaded grid returns, two files are stored; the first one is the decomposed grid, all
    points of which are corners, and the second one is the first with its zones moved. *)
Theorem C111_case : forall {F : FloatOps} real near fns levels name k text h hl h2 evs, faithful_numbers -> order_ok -> Forall mesh_sign fns ->
  load true text (new_grid h) = (Ok tt, hl) -> file_form [] (file_lines text) evs -> no_degenerate (zones_of evs) -> faces_in (zones_of evs) <> 0 ->
  plain_name name -> decompose_hierarchical fns levels (Some name) [] hl = (Ok tt, h2) ->
  exists t1 t2 h' evs1 evs2, explode_case real near fns levels name k text h = (Ok (t1, t2), h') /\ store h2 = Ok t1 /\
    file_form [] (file_lines t1) evs1 /\ file_form [] (file_lines t2) evs2 /\
    title_in evs1 = Some name /\ title_in evs2 = Some name /\
    length (zones_of evs1) <= 2 ^ (levels - 1) /\ faces_in (zones_of evs1) = faces_in (zones_of evs) /\
    Forall (fun zr => used_points zr = zr_pts zr) (zones_of evs1) /\
    Forall2 (fun zr zr' => moved_zone real near (way real k (zones_of evs1) zr) zr zr') (zones_of evs1) (zones_of evs2).
Proof. exact @explode_case_ok. Qed.
Print Assumptions C111_case.

Example C111_case_example : let evs := [ETitle (lit "plate"); EZone zoneA; EZone zoneB] in
  @order_ok ZOps /\ Forall mesh_sign by_x /\ load true two_zones (new_grid empty_heap) = (Ok tt, whole) /\
  faces_in (zones_of evs) = 3 /\ plain_name (lit "plate hierarchical") /\
  decompose_hierarchical by_x 2 (Some (lit "plate hierarchical")) [] whole = (Ok tt, halves) /\
  map (z_name halves) (g_zones halves) = [lit "hl"; lit "hr"] /\ map (z_faces halves) (g_zones halves) = [[1]; [0; 2]].
Proof.
  split; [exact Zorder_ok|]. split; [exact by_x_mesh|]. split; [exact whole_run|]. split; [reflexivity|].
  split; [apply plain_nameb_ok; reflexivity|]. split; [exact halves_run|exact halves_zones].
Qed.

(** C111.  The claim for all accepted files is false: a file with a zone without faces is
    accepted, but the explosion divides by zero (no file is stored). *)
Theorem C111_empty_refuted : exists (text : str) (h1 : @heap ZOps) evs zr,
  load false text empty_heap = (Ok tt, h1) /\ file_form [] (file_lines text) evs /\ In zr (zones_of evs) /\ zr_conn zr = [] /\
  forall k out h', explode_file zreal znear k text empty_heap <> (Ok out, h').
Proof.
  exists bare_text, bare, [ETitle (lit "bare"); EZone zoneA1; EZone bare_zone], bare_zone.
  split; [exact bare_run|]. split; [exact bare_form|]. split; [right; left; reflexivity|]. split; [reflexivity|].
  intros k out h'. apply (explode_empty zreal znear k bare_text empty_heap bare _ bare_zone out h' bare_run bare_form); [right; left; reflexivity|reflexivity].
Qed.
Print Assumptions C111_empty_refuted.
