(** Properties of the programs remesh.py and drops.py from file to file: C81 - C84.

    Model: Programs.v (with GridIO.v, Remesh.v, Drops.v, DropsText.v).  Specification
    vocabulary: ProgramsSpec.v, FileSpec.v, StoreSpec.v, DropsSpec.v, DropsTextSpec.v. *)

From Coq Require Import ZArith Reals Ascii String Bool Lia Lra List.
From Verif Require Import Py Heap GridModel GridSpec Mpi MpiSpec GridIO FileSpec StoreSpec Samples SamplesStore Utils UtilsSpec Geom GeomSpec
  Drops DropsSpec DropsCases DropsText DropsTextSpec Programs ProgramsSpec ProgramsProofs ProgramsMore ProgramsDrops ProgramsNames ProgramsCases ProgramsStall.
From Verif Require Remesh RemeshSpec RemeshMore.
Import ListNotations.
Open Scope list_scope.
Open Scope nat_scope.

(* ================================================================== *)
(** C81.  Every accepted file (with faces, none of them degenerate) can be stored again, and
    the stored text is accepted, in any state, and gives a grid with the same contents. *)
Theorem C81_stored_again : forall {F : FloatOps} text h h1 evs, faithful_numbers -> load true text (new_grid h) = (Ok tt, h1) ->
  file_form [] (file_lines text) evs -> no_degenerate (zones_of evs) -> g_faces h1 <> [] ->
  exists out, store h1 = Ok out /\ forall h0, exists h2, load true out h0 = (Ok tt, h2) /\ same_contents (grid_vars h1) h1 h2.
Proof. exact @stored_again. Qed.
Print Assumptions C81_stored_again.

Example C81_example : load true ice_text (new_grid empty_heap) = (Ok tt, ice_heap) /\
  file_form [] (file_lines ice_text) [ETitle (lit "ice"); EZone ice_zone] /\
  no_degenerate (zones_of [ETitle (lit "ice"); EZone ice_zone]) /\ g_faces ice_heap <> [].
Proof. split; [exact ice_run|]. split; [exact ice_form|]. split; [exact ice_nd|]. rewrite ice_faces. discriminate. Qed.

(* ================================================================== *)
(** C82.  remesh.py from file to file.  If the remeshing itself ends ([s'] is its result)
    and the new positions of nodes differ after rounding, then a file is stored; read
    again, it has the title, zones and faces of the input, with the new positions of the
    corners, Hi = 0 and the other variables as they were. *)
Theorem C82_remeshed_file_partial : forall {F : FloatOps} real near fixn o text h h1 evs s', faithful_numbers ->
  load true text (new_grid h) = (Ok tt, h1) ->
  file_form [] (file_lines text) evs -> no_degenerate (zones_of evs) -> g_faces h1 <> [] ->
  Remesh.remesh o (topo_of h1) (st_of real h1) = Ok s' ->
  let pos := fun n => pt_of near (Remesh.n_pos s' n) in
  apart pos h1 -> exists out h', remesh_file real near fixn o text h = (Ok out, h') /\
  forall h0, exists h2, load true out h0 = (Ok tt, h2) /\
    same_surface pos (with_var (lit "Hi") (grid_vars h1))
      (fun f v => if str_dec v (lit "Hi") then near 0%R else var_value h1 f v) h1 h2.
Proof. exact @remesh_file_ok. Qed.
Print Assumptions C82_remeshed_file_partial.

(** C82.  On a flat surface with the same height of ice [H] on all faces, and every point of
    the file on a face, remeshing always ends: all corners are moved along the normal
    by this height (times 1 + 1/2 + ... + 1/N without redistribution). *)
Theorem C82_flat_file : forall {F : FloatOps} real near fixn o text h h1 evs n H N, faithful_numbers ->
  load true text (new_grid h) = (Ok tt, h1) ->
  file_form [] (file_lines text) evs -> no_degenerate (zones_of evs) -> g_faces h1 <> [] ->
  (forall p, In p (all_pts (zones_of evs)) -> used (zones_of evs) p) ->
  (forall f a b c, In f (g_faces h1) -> f_nodes h1 f = [a; b; c] ->
     normal_orth (Tri (vect_of real (n_p h1 a)) (vect_of real (n_p h1 b)) (vect_of real (n_p h1 c)) f) = Ok n) ->
  (forall f, In f (g_faces h1) -> real (face_get h1 f (lit "Hi")) = H) ->
  (Remesh.nss_steps o <= 0)%Z -> Remesh.pseudo_2d_oz o = false -> (0 < Remesh.nsmooth_k o)%R -> (0 <= Remesh.hsmooth_alfa o)%R -> (0 <= H)%R ->
  Remesh.calculate_nsteps o (topo_of h1) (st_of real h1) = Ok N -> (1 <= N)%Z ->
  let q := if Remesh.rest_volume_redistr o then H else (H * RemeshSpec.harmonic (Z.to_nat N))%R in
  let pos := fun k => pt_of near (vadd (vect_of real (n_p h1 k)) (vmul n q)) in
  apart pos h1 -> exists out h', remesh_file real near fixn o text h = (Ok out, h') /\
  forall h0, exists h2, load true out h0 = (Ok tt, h2) /\
    same_surface pos (with_var (lit "Hi") (grid_vars h1))
      (fun f v => if str_dec v (lit "Hi") then near 0%R else var_value h1 f v) h1 h2.
Proof. exact @flat_file. Qed.
Print Assumptions C82_flat_file.

(** All conditions together, on the file of a square with ice of height 1. *)
Example C82_example : exists out h', remesh_file zreal znear true (RemeshMore.two_steps true) ice_text empty_heap = (Ok out, h') /\
  forall h0, exists h2, load true out h0 = (Ok tt, h2) /\
    same_surface (fun k => pt_of znear (vadd (vect_of zreal (n_p ice_heap k)) (vmul (V3 0 0 1) 1))) (with_var (lit "Hi") (grid_vars ice_heap))
      (fun f v => if str_dec v (lit "Hi") then znear 0%R else var_value ice_heap f v) ice_heap h2.
Proof.
  apply (C82_flat_file zreal znear true (RemeshMore.two_steps true) ice_text empty_heap ice_heap _ (V3 0 0 1) 1%R 2%Z Z_faithful
    ice_run ice_form ice_nd); try (cbn; lra || lia || reflexivity).
  - rewrite ice_faces. discriminate.
  - exact ice_used.
  - exact ice_flat.
  - intros f Hf. rewrite ice_faces in Hf. destruct ice_hi as [A B]. destruct Hf as [<-|[<-|[]]]; [rewrite A|rewrite B]; reflexivity.
  - exact ice_steps.
  - exact ice_apart.
Qed.

(** C82.  A point of the file that is a corner of no face: remesh.py never stores a file
    (whatever the ice), although the file is accepted by load. *)
Theorem C82_lone_point : forall {F : FloatOps} real near fixn o text h h1 evs p out h', load true text (new_grid h) = (Ok tt, h1) ->
  file_form [] (file_lines text) evs -> no_degenerate (zones_of evs) -> (1 <= Remesh.nsteps_min o)%Z ->
  In p (all_pts (zones_of evs)) -> ~ used (zones_of evs) p -> remesh_file real near fixn o text h <> (Ok out, h').
Proof. exact @lone_point. Qed.
Print Assumptions C82_lone_point.

(** So "every accepted file without degenerate faces is remeshed" is false, for all
    options that ask for at least one step. *)
Theorem C82_always_refuted : exists (F : FloatOps) real near text h h1 evs, load true text (new_grid h) = (Ok tt, h1) /\
  file_form [] (file_lines text) evs /\ no_degenerate (zones_of evs) /\ g_faces h1 <> [] /\
  forall fixn o out h', (1 <= Remesh.nsteps_min o)%Z -> remesh_file real near fixn o text h <> (Ok out, h').
Proof.
  exists ZOps, zreal, znear, lone_text, empty_heap, lone_heap, [EZone lone_zone].
  split; [exact lone_run|]. split; [exact lone_form|]. split; [exact lone_nd|]. split; [vm_compute; discriminate|].
  intros fixn o out h' Ho. apply (C82_lone_point zreal znear fixn _ _ _ _ _ ((5, 5, 5)%Z : @pt ZOps) out h' lone_run lone_form lone_nd).
  - exact Ho.
  - right. right. right. left. reflexivity.
  - exact lone_unused.
Qed.
Print Assumptions C82_always_refuted.

(* ================================================================== *)
(** C83.  drops.py from files to files.  If the flights end without an exception, both files
    are written.  The stored grid, read again, has the title, zones, faces and corners
    of the input; its variables are T, Hw, Hi (all zero), the variables of the input
    that are not about stall, and MImp2 if the input has it or a droplet landed on the first
    face; MImp2 of a face is the mass of the last droplet landed on it over its area, or the
    old value. *)
Theorem C83_drops_files_partial : forall {F : FloatOps} real near fl fm d dt thr n text air h h1 evs ds gs trs, faithful_numbers ->
  (forall v, near (real v) = v) -> real val0 = 0%R ->
  load true text (new_grid h) = (Ok tt, h1) -> file_form [] (file_lines text) evs -> no_degenerate (zones_of evs) -> g_faces h1 <> [] ->
  air_form fl air ds -> drops (surface_of real h1) ds d dt thr n = Ok (gs, trs) ->
  exists out h' c sp, drops_files real near fl fm d dt thr n text air h = (Ok (out, trajectories_file fm Z.of_nat trs), h') /\
  triangles_cloud (get_triangles_list (surface_of real h1)) = Ok c /\ make_space ds = Ok sp /\
  forall h0, exists h2 vars value, load true out h0 = (Ok tt, h2) /\ same_surface (n_p h1) vars value h1 h2 /\
    (forall k, In k vars <-> In k [lit "T"; lit "Hw"; lit "Hi"] \/
       (~ is_stall k /\ In k (grid_vars h1)) \/ (k = lit "MImp2" /\ exists i, lands sp c d dt thr n (surface_of real h1) i 0)) /\
    forall j f, nth_error (g_faces h1) j = Some f ->
      (forall k, In k [lit "T"; lit "Hw"; lit "Hi"] -> value f k = near 0%R) /\
      (forall k, ~ is_stall k -> ~ In k [lit "T"; lit "Hw"; lit "Hi"] -> k <> lit "MImp2" -> value f k = var_value h1 f k) /\
      (forall i fi, nth_error (g_faces h1) i = Some fi -> lands sp c d dt thr n (surface_of real h1) i j ->
         (forall i', lands sp c d dt thr n (surface_of real h1) i' j -> i' <= i) ->
         value f (lit "MImp2") = near (real (var_value h1 fi (lit "Stall")) / area (get_triangle (dface_of real h1 f) j))%R) /\
      ((forall i, ~ lands sp c d dt thr n (surface_of real h1) i j) -> value f (lit "MImp2") = var_value h1 f (lit "MImp2")).
Proof. exact @drops_files_ok. Qed.
Print Assumptions C83_drops_files_partial.

Example C83_example : (forall v, znear (zreal v) = v) /\ load true stall_text (new_grid empty_heap) = (Ok tt, stall_heap) /\
  file_form [] (file_lines stall_text) [EZone stall_H; EZone stall_L] /\ no_degenerate (zones_of [EZone stall_H; EZone stall_L]) /\
  air_form z_fl calm_lines still_air /\ exists gs trs, drops (surface_of zreal stall_heap) still_air 1 1 0 1 = Ok (gs, trs).
Proof.
  split; [exact znear_real|]. split; [exact stall_run|]. split; [exact stall_form|]. split; [exact stall_nd|]. split; [exact calm_form|].
  rewrite stall_surface. destruct both_low as (c & _ & _ & _ & E). exact E.
Qed.

(** "If a droplet landed somewhere then the stored file has MImp2" is false: the
    variables of the file are those of the first face. *)
Theorem C83_impinged_refuted : exists (F : FloatOps) real near fl fm d dt thr n text air out trf h h' h1 sp c i j,
  faithful_numbers /\ (forall v, near (real v) = v) /\ real val0 = 0%R /\ load true text (new_grid h) = (Ok tt, h1) /\
  drops_files real near fl fm d dt thr n text air h = (Ok (out, trf), h') /\
  triangles_cloud (get_triangles_list (surface_of real h1)) = Ok c /\ (exists ds, air_form fl air ds /\ make_space ds = Ok sp) /\
  lands sp c d dt thr n (surface_of real h1) i j /\
  forall h0, exists h2, load true out h0 = (Ok tt, h2) /\ length (g_faces h2) = length (g_faces h1) /\
    forall z f, In z (g_zones h2) -> In f (z_faces h2 z) -> ~ In (lit "MImp2") (keys (f_data h2 f)).
Proof.
  destruct both_low as (c & Ec & L1 & L0 & gs & trs & E).
  assert (Hne : g_faces stall_heap <> []) by (rewrite stall_faces; discriminate).
  rewrite <- stall_surface in E.
  destruct (C83_drops_files_partial zreal znear z_fl (fun _ => []) 1 1 0 1%Z stall_text calm_lines empty_heap stall_heap _ still_air gs trs
    Z_faithful znear_real eq_refl stall_run stall_form stall_nd Hne calm_form E) as (out & h' & c' & sp & Ed & Ec' & Es & K).
  rewrite stall_surface in Ec'. rewrite Ec in Ec'. injection Ec' as <-. rewrite still_space in Es. injection Es as <-.
  exists ZOps, zreal, znear, z_fl, (fun _ => []), 1%R, 1%R, 0%R, 1%Z, stall_text, calm_lines, out, (trajectories_file (fun _ => []) Z.of_nat trs),
    empty_heap, h', stall_heap, (Space still_air air_box), c, 0, 1.
  split; [exact Z_faithful|]. split; [exact znear_real|]. split; [reflexivity|]. split; [exact stall_run|]. split; [exact Ed|].
  rewrite stall_surface. split; [exact Ec|]. split; [exists still_air; split; [exact calm_form|exact still_space]|].
  split; [apply L1; lia|]. intros h0. destruct (K h0) as (h2 & vars & value & E2 & S & V & _). exists h2. split; [exact E2|].
  assert (NV : ~ In (lit "MImp2") vars).
  { rewrite V, stall_surface. intros [H|[[_ H]|[_ [i H]]]].
    - destruct H as [H|[H|[H|[]]]]; discriminate.
    - rewrite stall_names in H. destruct H as [H|[H|[H|[H|[H|[]]]]]]; discriminate.
    - exact (L0 i H). }
  split; [apply S|]. intros z f Hz Hf I. apply NV. rewrite <- (surface_keys _ _ _ _ _ _ S z f Hz Hf). exact I.
Qed.
Print Assumptions C83_impinged_refuted.

(* ================================================================== *)
(** C84.  Names of stored files.  The grid 'nm_r_TIMESTAMP.dat' that the gathering step
    stores is remeshed into 'nm_TIMESTAMP.dat' in the output directory, a name with the same
    base and timestamp; other names stay.  Missing for the full statement: names with
    '_r_' of their own. *)
Theorem C84_name_partial : forall outdir dir nm t, contains (lit "_r_") (nm ++ lit "_") = false -> no_slash nm -> twelve_digits t ->
  remesh_name outdir (dir ++ lit "/" ++ nm ++ lit "_r_" ++ t ++ lit ".dat") = outdir ++ lit "//" ++ nm ++ lit "_" ++ t ++ lit ".dat" /\
  remesh_name outdir (nm ++ lit "_r_" ++ t ++ lit ".dat") = outdir ++ lit "/" ++ nm ++ lit "_" ++ t ++ lit ".dat" /\
  get_filename_and_timestamp_pair (nm ++ lit "_" ++ t) = (nm, t).
Proof. exact remesh_name_ok. Qed.
Print Assumptions C84_name_partial.

Theorem C84_same_name : forall outdir dir nm, contains (lit "_r_") nm = false -> no_slash nm ->
  remesh_name outdir (dir ++ lit "/" ++ nm) = outdir ++ lit "//" ++ nm.
Proof. exact remesh_name_same. Qed.
Print Assumptions C84_same_name.

Example C84_example : contains (lit "_r_") (lit "wing_1" ++ lit "_") = false /\ no_slash (lit "wing_1") /\ twelve_digits (lit "000000000100") /\
  remesh_name (lit "out") (lit "in/wing_1_r_000000000100.dat") = lit "out//wing_1_000000000100.dat".
Proof. repeat split. Qed.

(** A name with '_r_' of its own loses it. *)
Theorem C84_name_refuted : exists outdir nm t, no_slash nm /\ twelve_digits t /\
  remesh_name outdir (lit "in/" ++ nm ++ lit "_r_" ++ t ++ lit ".dat") <> outdir ++ lit "//" ++ nm ++ lit "_" ++ t ++ lit ".dat".
Proof. exact name_lost. Qed.
Print Assumptions C84_name_refuted.

(** Different grids of one directory can be stored under the same name: the second
    replaces the first. *)
Theorem C84_distinct_refuted : exists outdir a b, a <> b /\ remesh_name outdir a = remesh_name outdir b.
Proof. exact names_meet. Qed.
Print Assumptions C84_distinct_refuted.
