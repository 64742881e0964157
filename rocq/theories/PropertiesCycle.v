(** Properties of the cycle split - solver - merge: C112.

    Model: Driver.v, Mpi.v, GridIO.v.  Specification vocabulary: CycleSpec.v, FileSpec.v,
    StoreSpec.v, DriverSpec.v. *)

From Coq Require Import ZArith Ascii String Bool Lia List Permutation.
From Verif Require Import Py Heap GridModel GridSpec GridIO FileSpec StoreSpec Mpi Driver DriverSpec
  Samples SamplesIO SamplesStore SamplesDriver CycleSpec CycleProofs CycleCases.
Import ListNotations.
Open Scope list_scope.
Open Scope nat_scope.

(* ================================================================== *)
(** C112.  A grid file is split into files for the solver with any strategy; for each of
    them the solver writes a text with one row of values per face, labelled by the number
    the file gives to that face, in any order; merge is run on the initial grid file and these
    texts.  Then merge succeeds, and in the grid loaded from its result the face at place
    [g] is the very triangle that the file for the solver gives under number [g], with the
    same corners in the same order, and its data are the values computed for it. *)
Theorem C112_cycle : forall {F : FloatOps} text strat fixed rf h hs ms evs h0 vars txts tabs, faithful_numbers -> order_ok ->
  file_form [] (file_lines text) evs -> no_degenerate (zones_of evs) -> faces_in (zones_of evs) <> 0 ->
  split (Some text) (lit ".dat") strat fixed rf ToMpi h = (Ok (WMpi ms), hs) ->
  title_in evs <> None \/ plain_name (g_name h0) -> NoDup vars ->
  length txts = length ms -> length tabs = length ms ->
  (forall i m t tab, nth_error ms i = Some m -> nth_error txts i = Some t -> nth_error tabs i = Some tab -> computed vars m t tab) ->
  exists out h', merge_one text txts h0 = (Ok out, h') /\
    forall h1, exists h2, load true out h1 = (Ok tt, h2) /\ length (g_faces h2) = faces_in (zones_of evs) /\
      forall i m t tab j g ps vs, nth_error ms i = Some m -> nth_error txts i = Some t -> nth_error tabs i = Some tab ->
        cry_face m j g ps -> In (g, vs) tab ->
        exists f, (0 <= g)%Z /\ nth_error (g_faces h2) (Z.to_nat g) = Some f /\ map (n_p h2) (f_nodes h2 f) = ps /\
          f_data h2 f = dict_of str_dec (combine vars vs).
Proof. exact @cycle. Qed.
Print Assumptions C112_cycle.

(** C112.  The premise about the faces of the files covers the whole grid: each face of the
    initial file is in one file for the solver at one place, with three corners. *)
Theorem C112_every : forall {F : FloatOps} text strat fixed rf h hs ms evs, order_ok ->
  file_form [] (file_lines text) evs -> no_degenerate (zones_of evs) ->
  split (Some text) (lit ".dat") strat fixed rf ToMpi h = (Ok (WMpi ms), hs) ->
  NoDup (concat (map mf_gloids ms)) /\
  forall k, k < faces_in (zones_of evs) -> exists i m j ps, nth_error ms i = Some m /\ cry_face m j (Z.of_nat k) ps /\ length ps = 3.
Proof. exact @cycle_every. Qed.
Print Assumptions C112_every.

(** The plate of two zones split into two parts, the fixed zone B being the first one. *)
Example C112_example : let evs := [ETitle (lit "plate"); EZone zoneA; EZone zoneB] in
  @faithful_numbers ZOps /\ @order_ok ZOps /\ file_form [] (file_lines two_zones) evs /\ no_degenerate (zones_of evs) /\ faces_in (zones_of evs) = 3 /\
  split (Some two_zones) (lit ".dat") (lit "n2") [lit "B"] 1%Z ToMpi empty_heap = (Ok (WMpi parts), parted) /\
  title_in evs <> None /\ NoDup [lit "T"; lit "Hi"] /\ length parts = 2 /\
  (forall i m t tab, nth_error parts i = Some m -> nth_error [ans1; ans2] i = Some t ->
    nth_error [rows1; rows2] i = Some tab -> computed [lit "T"; lit "Hi"] m t tab) /\
  (exists m, nth_error parts 0 = Some m /\ cry_face m 0 2 [(1, 0, 0); (0, 1, 0); (1, 1, 0)]%Z) /\ In (2, [30; 31])%Z rows1.
Proof.
  split; [exact Z_faithful|]. split; [exact Zorder_ok|]. split; [exact two_zones_form|]. split; [exact two_zones_nd|]. split; [reflexivity|].
  split; [exact parted_run|]. split; [discriminate|]. split; [constructor; [intros [K|[]]; discriminate K|]; constructor; [intros []|constructor]|].
  split; [rewrite <- (map_length mf_gloids), parts_ids; reflexivity|]. split; [exact answers|]. split; [exact part_face|]. left. reflexivity.
Qed.

(** C112.  The answers of the solver may not be merged into the dat file which split stores
    for the same decomposition: its faces are numbered in the order of the new zones, the
    files for the solver keep the numbers of the initial file.  Merge succeeds, but a face gets
    the values of another one. *)
Theorem C112_decomposed_refuted : exists text strat fixed rf h ms hs dat hd vars txts tabs out h' h2,
  file_form [] (file_lines text) [ETitle (lit "plate"); EZone zoneA; EZone zoneB] /\
  @split ZOps (Some text) (lit ".dat") strat fixed rf ToMpi h = (Ok (WMpi ms), hs) /\
  @split ZOps (Some text) (lit ".dat") strat fixed rf ToDat h = (Ok (WDat dat), hd) /\
  length txts = length ms /\ length tabs = length ms /\
  (forall i m t tab, nth_error ms i = Some m -> nth_error txts i = Some t -> nth_error tabs i = Some tab -> computed vars m t tab) /\
  merge_one dat txts h = (Ok out, h') /\ load true out h = (Ok tt, h2) /\
  exists i m tab j g ps vs, nth_error ms i = Some m /\ nth_error tabs i = Some tab /\ cry_face m j g ps /\ In (g, vs) tab /\
    (exists f, In f (g_faces h2) /\ map (n_p h2) (f_nodes h2 f) = ps) /\
    forall f, In f (g_faces h2) -> map (n_p h2) (f_nodes h2 f) = ps -> f_data h2 f <> dict_of str_dec (combine vars vs).
Proof.
  exists two_zones, (lit "n2"), [lit "B"], 1%Z, empty_heap, parts, parted, stored_text, stored, [lit "T"; lit "Hi"], [ans1; ans2], [rows1; rows2],
    remerged_text, remerged, reloaded.
  split; [exact two_zones_form|]. split; [exact parted_run|]. split; [exact stored_run|].
  assert (L : length parts = 2) by (rewrite <- (map_length mf_gloids), parts_ids; reflexivity).
  split; [rewrite L; reflexivity|]. split; [rewrite L; reflexivity|]. split; [exact answers|]. split; [exact remerged_run|]. split; [exact reloaded_run|].
  destruct part_face as (m & Em & Ef). exists 0, m, rows1, 0, 2%Z, [(1, 0, 0); (0, 1, 0); (1, 1, 0)]%Z, [30; 31]%Z.
  split; [exact Em|]. split; [reflexivity|]. split; [exact Ef|]. split; [left; reflexivity|]. exact remerged_wrong.
Qed.
Print Assumptions C112_decomposed_refuted.
