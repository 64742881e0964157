(** Properties of storing a grid again and again: C100.

    Model: GridIO.v.  Specification vocabulary: FileSpec.v, StoreSpec.v, StableSpec.v. *)

From Coq Require Import ZArith Ascii String Bool List.
From Verif Require Import Py Heap GridModel GridSpec GridIO FileSpec StoreSpec Samples SamplesIO SamplesStore StableSpec StableFinal StableCases.
Import ListNotations.
Open Scope list_scope.

(** C100.  Storing what was read from a stored file gives the same file, byte for byte: false.  A
    node that is listed in a zone without being a corner there moves to another place. *)
Theorem C100_same_file_refuted : exists (F : FloatOps) text h0 h t1 h1 t2, faithful_numbers /\ load true text h0 = (Ok tt, h) /\ store h = Ok t1 /\
  load true t1 h0 = (Ok tt, h1) /\ store h1 = Ok t2 /\ t2 <> t1.
Proof. exact file_changes. Qed.
Print Assumptions C100_same_file_refuted.

(** C100.  It holds if the grid was read from a file with a title and a face where every
    node is a corner of a face of its zone. *)
Theorem C100_used_nodes_partial : forall {F : FloatOps} text h0 h1 h evs, faithful_numbers -> load true text h0 = (Ok tt, h) -> file_form [] (file_lines text) evs ->
  no_degenerate (zones_of evs) -> all_used (zones_of evs) -> title_in evs <> None -> (exists zr, In zr (zones_of evs) /\ zr_conn zr <> []) ->
  exists t1 g1, store h = Ok t1 /\ load true t1 h1 = (Ok tt, g1) /\ store g1 = Ok t1.
Proof. exact @used_store. Qed.
Print Assumptions C100_used_nodes_partial.

(** C100.  And for every grid it holds from the second stored file on. *)
Theorem C100_second_file : forall {F : FloatOps} h h0 h1, faithful_numbers -> grid_ok h -> zone_lists_ok h -> numbered h -> nodes_merged h -> writable h ->
  exists t1 g1 t2 g2, store h = Ok t1 /\ load true t1 h0 = (Ok tt, g1) /\ store g1 = Ok t2 /\
    load true t2 h1 = (Ok tt, g2) /\ store g2 = Ok t2.
Proof. exact @second_store. Qed.
Print Assumptions C100_second_file.

Example C100_example : @faithful_numbers ZOps /\ fst (load true two_zones empty_heap) = Ok tt /\
  file_form [] (file_lines two_zones) [ETitle (lit "plate"); EZone zoneA; EZone zoneB] /\ no_degenerate [zoneA; zoneB] /\ all_used [zoneA; zoneB] /\
  title_in (F := ZOps) [ETitle (lit "plate"); EZone zoneA; EZone zoneB] <> None.
Proof.
  split; [exact Z_faithful|]. split; [vm_compute; reflexivity|]. split; [exact two_zones_form|]. split; [exact two_zones_nd|].
  split; [exact two_zones_used|]. discriminate.
Qed.

(** The grid plate meets the hypotheses of the last theorem. *)
Example C100_example_second : (grid_ok plate /\ zone_lists_ok plate /\ numbered plate /\ nodes_merged plate) /\ writable plate.
Proof. exact (conj plate_ok plate_writable). Qed.
