(** Properties of grid files with the same contents: C120.

    Model: GridIO.v, Stamps.v, Programs.v.  Specification vocabulary: FileSpec.v, ContentsSpec.v. *)

From Coq Require Import ZArith Ascii String Bool List.
From Verif Require Import Py Heap GridModel Mpi GridIO FileSpec Utils Driver Stamps Programs Remesh
  Samples SamplesIO ContentsSpec ContentsProofs ContentsCases.
Import ListNotations.
Open Scope list_scope.
Open Scope nat_scope.

(* ================================================================== *)
(** C120.  The grid is determined by what the file says: two well-formed files with the same title and the same
    zones (points, values, corners, names) in the same order give the same grid, whatever else differs. *)
Theorem C120_contents : forall {F : FloatOps} t1 t2 evs, file_form [] (file_lines t1) evs -> file_form [] (file_lines t2) evs ->
  forall m h, load m t1 h = load m t2 h.
Proof. exact @contents_load. Qed.
Print Assumptions C120_contents.

(** C120.  So comments may be added before and after zones, and numbers may be written with other digits, spaces and
    tabs. *)
Theorem C120_rewritten : forall {F : FloatOps} t t' ps ps' evs, file_lines t = flat_map lines_of_piece ps -> file_lines t' = flat_map lines_of_piece ps' ->
  pieces [] ps evs -> rewritten ps ps' -> forall m h, load m t' h = load m t h.
Proof. exact @rewritten_load. Qed.
Print Assumptions C120_rewritten.

(** C120.  The line end after the last face of the last zone may be missing. *)
Theorem C120_last_line_end : forall {F : FloatOps} t ps l l1 l2 l3 l4 l5 nums conns c0 evs, (forall c, In c t -> c <> cr) ->
  file_lines (t ++ [nl]) = flat_map lines_of_piece (ps ++ [PZone l l1 l2 l3 l4 l5 nums (conns ++ [c0 ++ [nl]])]) -> c0 <> [] ->
  pieces [] (ps ++ [PZone l l1 l2 l3 l4 l5 nums (conns ++ [c0 ++ [nl]])]) evs ->
  forall m h, load m t h = load m (t ++ [nl]) h.
Proof. exact @last_line_end. Qed.
Print Assumptions C120_last_line_end.

(** C120.  Two files that are loaded alike are treated alike by the programs: split, merge and remesh write the same
    files. *)
Theorem C120_split : forall {F : FloatOps} t t', (forall m h, load m t' h = load m t h) -> forall stem sf strat fixed rf h,
  split_run stem (Some t') sf strat fixed rf h = split_run stem (Some t) sf strat fixed rf h.
Proof. exact @split_same. Qed.
Print Assumptions C120_split.
Theorem C120_merge : forall {F : FloatOps} t t', (forall m h, load m t' h = load m t h) -> forall stem d h,
  merge_run stem (Some t') d h = merge_run stem (Some t) d h.
Proof. exact @merge_same. Qed.
Print Assumptions C120_merge.
Theorem C120_remesh : forall {F : FloatOps} t t', (forall m h, load m t' h = load m t h) -> forall real near fix_nodes o h,
  remesh_file real near fix_nodes o t' h = remesh_file real near fix_nodes o t h.
Proof. exact @remesh_same. Qed.
Print Assumptions C120_remesh.

(** The plate, with more comments and other spaces and digits, and without the last line end. *)
Example C120_example :
  file_lines two_zones = flat_map lines_of_piece two_pieces /\ @pieces ZOps [] two_pieces [ETitle (lit "plate"); EZone zoneA; EZone zoneB] /\
  file_lines dressed = flat_map lines_of_piece dressed_pieces /\ @rewritten ZOps two_pieces dressed_pieces /\ dressed <> two_zones /\
  chopped ++ [nl] = two_zones /\ forallb (fun c => negb (Ascii.eqb c cr)) chopped = true.
Proof.
  split; [exact two_lines|]. split; [exact two_pieces_ok|]. split; [exact dressed_lines|]. split; [exact dressed_same|].
  split; [intros K; apply (f_equal (@List.length ascii)) in K; vm_compute in K; discriminate K|]. split; [exact chopped_nl|vm_compute; reflexivity].
Qed.

(** C120 is false of comments inside a zone, which are taken for numbers, *)
Theorem C120_inside_refuted : exists text c a b h', file_form [] (file_lines text) [ETitle (lit "plate"); EZone zoneA; EZone zoneB] /\
  hd_error c = Some hash /\ file_lines text = a ++ b /\ @load ZOps true (List.concat (a ++ c :: b)) empty_heap = (Raise EValueError, h').
Proof.
  exists two_zones, (ln "# coordinates"), (firstn 9 (file_lines two_zones)), (skipn 9 (file_lines two_zones)), (snd (@load ZOps true inside_comment empty_heap)).
  split; [exact two_zones_form|]. split; [reflexivity|]. split; [symmetry; apply firstn_skipn|].
  assert (E : List.concat (firstn 9 (file_lines two_zones) ++ ln "# coordinates" :: skipn 9 (file_lines two_zones)) = inside_comment) by (vm_compute; reflexivity).
  rewrite <- inside_raises. exact (eq_trans (f_equal (fun t => @load ZOps true t empty_heap) E) (surjective_pairing _)).
Qed.
Print Assumptions C120_inside_refuted.

(** of blank lines, *)
Theorem C120_blank_refuted : exists text h', file_form [] (file_lines text) [ETitle (lit "plate"); EZone zoneA; EZone zoneB] /\
  @load ZOps true (text ++ [nl]) empty_heap = (Raise EException, h').
Proof.
  exists two_zones, (snd (@load ZOps true (two_zones ++ [nl]) empty_heap)). split; [exact two_zones_form|]. rewrite <- blank_raises. apply surjective_pairing.
Qed.
Print Assumptions C120_blank_refuted.

(** and of the line end after a title: without it the title loses its last letter. *)
Theorem C120_title_refuted : exists text h1 h2, @load ZOps true (text ++ [nl]) empty_heap = (Ok tt, h1) /\ @load ZOps true text empty_heap = (Ok tt, h2) /\
  g_name h1 = lit "plate" /\ g_name h2 = lit "plat".
Proof.
  destruct title_loads as (A & B & C & D).
  exists title_last, (snd (@load ZOps true (title_last ++ [nl]) empty_heap)), (snd (@load ZOps true title_last empty_heap)).
  split; [rewrite <- C; apply surjective_pairing|]. split; [rewrite <- A; apply surjective_pairing|]. split; [exact D|exact B].
Qed.
Print Assumptions C120_title_refuted.
