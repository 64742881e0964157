(** Properties of the programs interpolate.py and lazurit_add_beta_from_ansys.py from files to
    file: C96, C97.

    Model: Transfer.v (with GridIO.v, Convert.v).  Specification vocabulary: TransferSpec.v,
    ProgramsSpec.v, ConvertSpec.v, DropsSpec.v. *)

From Coq Require Import ZArith Reals Ascii String Bool Lia Lra List.
From Verif Require Import Py Heap GridModel GridSpec Mpi MpiSpec GridIO FileSpec StoreSpec Samples SamplesStore Geom ProgramsSpec ProgramsCases
  Transfer TransferSpec TransferProofs TransferCases.
Import ListNotations.
Open Scope list_scope.
Open Scope nat_scope.

(* ================================================================== *)
(** C96.  interpolate.py: the stored file, read in any state, has the title, zones, faces and
    corners of the target; each face has T and Hw of one of the source faces with the nearest
    middle, and its own values of all other variables. *)
Theorem C96_interpolate : forall {F : FloatOps} real query source target h1 h2 hs ht, finds_nearest query -> faithful_numbers ->
  load true source (new_grid h1) = (Ok tt, hs) -> g_faces hs <> [] ->
  forall evs, load true target (new_grid h2) = (Ok tt, ht) -> file_form [] (file_lines target) evs -> no_degenerate (zones_of evs) -> g_faces ht <> [] ->
  exists out src, interpolate_program real query source target h1 h2 = Ok out /\
    (forall f, In f (g_faces ht) -> near_face real hs ht f (src f)) /\
    forall h0, exists h3, load true out h0 = (Ok tt, h3) /\
      same_surface (n_p ht) (with_var (lit "Hw") (with_var (lit "T") (grid_vars ht)))
        (fun f => from_face [lit "T"; lit "Hw"] hs ht (src f) f) ht h3.
Proof. exact @interpolate_ok. Qed.
Print Assumptions C96_interpolate.

(** C96.  lazurit_add_beta_from_ansys.py: the same for Beta and the first of the nearest
    faces. *)
Theorem C96_add_beta : forall {F : FloatOps} real lazurit ansys h1 h2 hl ha, faithful_numbers ->
  load true ansys (new_grid h2) = (Ok tt, ha) -> g_faces ha <> [] ->
  forall evs, load true lazurit (new_grid h1) = (Ok tt, hl) -> file_form [] (file_lines lazurit) evs -> no_degenerate (zones_of evs) -> g_faces hl <> [] ->
  exists out src, add_beta_program real lazurit ansys h1 h2 = Ok out /\
    (forall f, In f (g_faces hl) -> first_near_face real ha hl f (src f)) /\
    forall h0, exists h3, load true out h0 = (Ok tt, h3) /\
      same_surface (n_p hl) (with_var (lit "Beta") (grid_vars hl)) (fun f => from_face [lit "Beta"] ha hl (src f) f) hl h3.
Proof. exact @add_beta_program_ok. Qed.
Print Assumptions C96_add_beta.

(** C96.  A source without faces is refused. *)
Theorem C96_no_source : forall {F : FloatOps} real query source target h1 h2 hs ht,
  load true source (new_grid h1) = (Ok tt, hs) -> g_faces hs = [] -> load true target (new_grid h2) = (Ok tt, ht) -> g_faces ht <> [] ->
  interpolate_program real query source target h1 h2 = Raise EIndexError /\
  add_beta_program real target source h2 h1 = Raise EValueError.
Proof. intros. split; [eapply interpolate_nothing|eapply add_beta_nothing]; eauto. Qed.
Print Assumptions C96_no_source.

(** A square with water and one triangle. *)
Example C96_example : finds_nearest scan /\ @faithful_numbers ZOps /\
  load true wet_text (new_grid empty_heap) = (Ok tt, wet_heap) /\ g_faces wet_heap <> [] /\
  load true one_text (new_grid empty_heap) = (Ok tt, one_heap) /\
  file_form [] (file_lines one_text) [ETitle (lit "one"); EZone one_zone] /\
  no_degenerate (zones_of [ETitle (lit "one"); EZone one_zone]) /\ g_faces one_heap <> [].
Proof.
  split; [exact scan_ok|]. split; [exact Z_faithful|]. split; [exact wet_run|]. split; [rewrite wet_faces; discriminate|].
  split; [exact one_run|]. split; [exact one_form|]. split; [exact one_nd|]. rewrite one_faces. discriminate.
Qed.

Example C96_example_result : exists out, interpolate_program zreal scan wet_text one_text empty_heap empty_heap = Ok out /\
  forall h0, exists h3 z f, load true out h0 = (Ok tt, h3) /\ g_zones h3 = [z] /\ z_faces h3 z = [f] /\
    f_data h3 f = [(lit "T", 8); (lit "Hw", 4); (lit "Hi", 2)]%Z.
Proof. exact one_interpolated. Qed.

(* ================================================================== *)
(** C97.  A variable that the source does not have is not lost in the target: false.  The source
    has no Hw, the target has Hw = 9; the stored file has Hw = 0, and no error is reported. *)
Theorem C97_missing_refuted : exists (F : FloatOps) real query source target hs ht out,
  finds_nearest query /\ faithful_numbers /\ load true source (new_grid empty_heap) = (Ok tt, hs) /\ load true target (new_grid empty_heap) = (Ok tt, ht) /\
  (forall g, In g (g_faces hs) -> dget str_dec (f_data hs g) (lit "Hw") = None) /\
  (exists z f, g_zones ht = [z] /\ z_faces ht z = [f] /\ dget str_dec (f_data ht f) (lit "Hw") <> Some val0 /\ In (lit "Hw") (grid_vars ht)) /\
  interpolate_program real query source target empty_heap empty_heap = Ok out /\
  forall h0, exists h3 z f, load true out h0 = (Ok tt, h3) /\ g_zones h3 = [z] /\ z_faces h3 z = [f] /\ var_value h3 f (lit "Hw") = val0.
Proof.
  destruct one_dried as (out & E & K).
  exists ZOps, zreal, scan, ice_text, one_text, ice_heap, one_heap, out.
  split; [exact scan_ok|]. split; [exact Z_faithful|]. split; [exact ice_run|]. split; [exact one_run|]. split; [exact ice_no_hw|].
  split; [exact one_wet|]. split; [exact E|exact K].
Qed.
Print Assumptions C97_missing_refuted.

(** C97.  This holds for every source that has Hw nowhere: all values of the target are
    replaced by zero. *)
Theorem C97_missing : forall {F : FloatOps} real query source target h1 h2 hs ht, finds_nearest query -> faithful_numbers ->
  load true source (new_grid h1) = (Ok tt, hs) -> g_faces hs <> [] ->
  forall evs, load true target (new_grid h2) = (Ok tt, ht) -> file_form [] (file_lines target) evs -> no_degenerate (zones_of evs) -> g_faces ht <> [] ->
  forall k, In k [lit "T"; lit "Hw"] -> (forall g, In g (g_faces hs) -> dget str_dec (f_data hs g) k = None) ->
  exists out, interpolate_program real query source target h1 h2 = Ok out /\
    forall h0, exists h3, load true out h0 = (Ok tt, h3) /\
      forall z f, In z (g_zones h3) -> In f (z_faces h3 z) -> dget str_dec (f_data h3 f) k = Some val0.
Proof. exact @interpolate_missing. Qed.
Print Assumptions C97_missing.

(** C97.  Likewise for Beta. *)
Theorem C97_missing_beta : forall {F : FloatOps} real lazurit ansys h1 h2 hl ha, faithful_numbers ->
  load true ansys (new_grid h2) = (Ok tt, ha) -> g_faces ha <> [] ->
  forall evs, load true lazurit (new_grid h1) = (Ok tt, hl) -> file_form [] (file_lines lazurit) evs -> no_degenerate (zones_of evs) -> g_faces hl <> [] ->
  (forall g, In g (g_faces ha) -> dget str_dec (f_data ha g) (lit "Beta") = None) ->
  exists out, add_beta_program real lazurit ansys h1 h2 = Ok out /\
    forall h0, exists h3, load true out h0 = (Ok tt, h3) /\
      forall z f, In z (g_zones h3) -> In f (z_faces h3 z) -> dget str_dec (f_data h3 f) (lit "Beta") = Some val0.
Proof. exact @beta_missing. Qed.
Print Assumptions C97_missing_beta.
