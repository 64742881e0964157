(** Properties of the decomposition of a grid from file to file: C113.

    Model: Redivide.v (with GridIO.v, GridModel.v).  Specification vocabulary: RedivideSpec.v,
    DecompSpec.v, FileSpec.v, StoreSpec.v, DriverSpec.v. *)

From Coq Require Import ZArith Ascii String Bool Lia List Permutation.
From Verif Require Import Py Heap GridModel GridSpec DecompSpec SimpleDecomp GridIO FileSpec StoreSpec DriverSpec LoadProps Samples SamplesIO SamplesStore
  Redivide RedivideSpec RedivideProofs RedivideCases.
Import ListNotations.
Open Scope list_scope.
Open Scope nat_scope.

(* ================================================================== *)
(** C113.  A grid file is loaded, decomposed by any of the decompositions and stored.  If the
    decomposition returns, the stored text is a well-formed file with the new title; its
    zones are those of the decomposed grid; all of them have the variables of the first zone of
    the initial file; it has no new points; and its faces - corners up to rounding, in
    order, and values of these variables (0 where the initial zone has no such variable) - are the
    faces of the initial file, each as many times as there. *)
Theorem C113_faces_partial : forall {F : FloatOps} nm d text h hl h2 evs, faithful_numbers -> load true text h = (Ok tt, hl) ->
  file_form [] (file_lines text) evs -> no_degenerate (zones_of evs) -> faces_in (zones_of evs) <> 0 ->
  (forall zr, In zr (zones_of evs) -> NoDup (zr_vars zr)) ->
  decomposition nm d -> d hl = (Ok tt, h2) ->
  (forall s, nm = Some s -> plain_name s) -> (nm = None -> title_in evs <> None \/ plain_name (g_name h)) ->
  exists out evs', redivide d text h = (Ok out, h2) /\ file_form [] (file_lines out) evs' /\
    title_in evs' = Some (match nm with Some s => s | None => g_name hl end) /\
    map zr_name (zones_of evs') = map (z_name h2) (g_zones h2) /\
    map (fun zr => length (zr_conn zr)) (zones_of evs') = map (fun z => length (z_faces h2 z)) (g_zones h2) /\
    (forall zr, In zr (zones_of evs') -> zr_vars zr = first_vars (zones_of evs)) /\
    incl (all_pts (zones_of evs')) (all_pts (zones_of evs)) /\
    Permutation (listed (first_vars (zones_of evs)) (zones_of evs')) (listed (first_vars (zones_of evs)) (zones_of evs)).
Proof. exact @redivided. Qed.
Print Assumptions C113_faces_partial.

(** C113.  When all zones of the initial file have the same variables, nothing is lost: the
    faces of the stored file with their rows of values are those of the initial file. *)
Theorem C113_rows : forall {F : FloatOps} nm d text h hl h2 evs vars, faithful_numbers -> load true text h = (Ok tt, hl) ->
  file_form [] (file_lines text) evs -> no_degenerate (zones_of evs) -> faces_in (zones_of evs) <> 0 ->
  NoDup vars -> (forall zr, In zr (zones_of evs) -> zr_vars zr = vars) ->
  decomposition nm d -> d hl = (Ok tt, h2) ->
  (forall s, nm = Some s -> plain_name s) -> (nm = None -> title_in evs <> None \/ plain_name (g_name h)) ->
  exists out evs', redivide d text h = (Ok out, h2) /\ file_form [] (file_lines out) evs' /\
    (forall zr, In zr (zones_of evs') -> zr_vars zr = vars) /\
    Permutation (listed_rows (zones_of evs')) (listed_rows (zones_of evs)).
Proof. exact @redivided_same. Qed.
Print Assumptions C113_rows.

Example C113_example : let evs := [ETitle (lit "plate"); EZone zoneA; EZone zoneB] in
  @faithful_numbers ZOps /\ load true two_zones empty_heap = (Ok tt, plate) /\ file_form [] (file_lines two_zones) evs /\
  no_degenerate (zones_of evs) /\ faces_in (zones_of evs) = 3 /\ (forall zr, In zr (zones_of evs) -> zr_vars zr = [lit "T"; lit "Hw"]) /\
  NoDup [lit "T"; lit "Hw"] /\ decomposition None (decompose_linear 2 None) /\ (exists h2, decompose_linear 2 None plate = (Ok tt, h2)) /\
  listed_rows (zones_of evs) =
    [([Some (0, 0, 0); Some (1, 0, 0); Some (0, 1, 0)], [7; 70]); ([Some (0, 0, 0); Some (0, 1, 0); Some (-1, -1, 0)], [8; 80]);
     ([Some (1, 0, 0); Some (0, 1, 0); Some (1, 1, 0)], [9; 90])]%Z.
Proof.
  split; [exact Z_faithful|]. split; [exact plate_run|]. split; [exact two_zones_form|]. split; [exact two_zones_nd|]. split; [reflexivity|].
  split; [intros zr [<-|[<-|[]]]; reflexivity|]. split; [constructor; [intros [K|[]]; discriminate K|constructor; [intros []|constructor]]|].
  split; [constructor|]. split.
  - destruct (linear_ok 2 None plate (proj1 plate_ok) ltac:(discriminate)) as (h2 & E & _). exists h2. exact E.
  - vm_compute. reflexivity.
Qed.

(** C113 is false when the zones of the initial file have different variables: the values of
    the variables which the first zone does not have are lost. *)
Theorem C113_variables_refuted : exists text h hl h2 out evs evs', @faithful_numbers ZOps /\ @load ZOps true text h = (Ok tt, hl) /\
  file_form [] (file_lines text) evs /\ no_degenerate (zones_of evs) /\
  redivide (decompose_mono None) text h = (Ok out, h2) /\ file_form [] (file_lines out) evs' /\ faces_in (zones_of evs') = faces_in (zones_of evs) /\
  exists zr v, In zr (zones_of evs) /\ zr_conn zr <> [] /\ In v (zr_vars zr) /\ forall zr', In zr' (zones_of evs') -> ~ In v (zr_vars zr').
Proof.
  destruct mixed_loses as (out & h2 & evs' & R & Ff & L & V).
  exists mixed, empty_heap, mixed_heap, h2, out, mixed_evs, evs'. split; [exact Z_faithful|]. split; [exact mixed_run|]. split; [exact mixed_form|].
  split; [exact mixed_nd|]. split; [exact R|]. split; [exact Ff|]. split; [exact L|].
  exists zoneBH, (lit "Hi"). split; [right; left; reflexivity|]. split; [discriminate|]. split; [right; right; left; reflexivity|exact V].
Qed.
Print Assumptions C113_variables_refuted.

(* ================================================================== *)
(** C114.  A grid file is loaded, its calc data are stored to a text and loaded from it, and the
    grid is stored.  The stored file has the same title and the same zones (names and numbers of
    faces); its variables are T, Hw and Hi; its faces are, one by one in the same order, the
    triangles of the initial file (corners up to rounding), and the three values of each are those of the
    initial file (0 where a zone has no such variable) increased by the random numbers
    drawn for one face.  All other variables are gone. *)
Theorem C114_redrawn : forall {F : FloatOps} add rand text h hl evs, faithful_numbers -> load true text (new_grid h) = (Ok tt, hl) ->
  file_form [] (file_lines text) evs -> no_degenerate (zones_of evs) -> faces_in (zones_of evs) <> 0 ->
  (forall zr, In zr (zones_of evs) -> NoDup (zr_vars zr)) ->
  let vars := map lit ["T"; "Hw"; "Hi"]%string in
  exists out h' evs', redraw add rand text h = (Ok out, h') /\ file_form [] (file_lines out) evs' /\
    title_in evs' = Some (g_name hl) /\
    map zr_name (zones_of evs') = map zr_name (zones_of evs) /\
    map (fun zr => length (zr_conn zr)) (zones_of evs') = map (fun zr => length (zr_conn zr)) (zones_of evs) /\
    (forall zr, In zr (zones_of evs') -> zr_vars zr = vars) /\
    Forall2 (redrawn_entry add rand) (listed vars (zones_of evs)) (listed_rows (zones_of evs')).
Proof. exact @redrawn. Qed.
Print Assumptions C114_redrawn.

Example C114_example : @faithful_numbers ZOps /\ load true mixed (new_grid empty_heap) = (Ok tt, mixed_heap) /\ file_form [] (file_lines mixed) mixed_evs /\
  no_degenerate (zones_of mixed_evs) /\ faces_in (zones_of mixed_evs) = 3 /\ (forall zr, In zr (zones_of mixed_evs) -> NoDup (zr_vars zr)) /\
  listed (map lit ["T"; "Hw"; "Hi"]%string) (zones_of mixed_evs) =
    [([Some (0, 0, 0); Some (1, 0, 0); Some (0, 1, 0)], [7; 70; 0]); ([Some (0, 0, 0); Some (0, 1, 0); Some (-1, -1, 0)], [8; 80; 0]);
     ([Some (1, 0, 0); Some (0, 1, 0); Some (1, 1, 0)], [9; 90; 900])]%Z.
Proof.
  split; [exact Z_faithful|]. split; [exact mixed_run|]. split; [exact mixed_form|]. split; [exact mixed_nd|]. split; [reflexivity|].
  split; [exact mixed_vars|vm_compute; reflexivity].
Qed.
