(** Properties of the program lazurit_to_crystal.py from a directory of files to the stored grid:
    C98, C99.

    Model: LazuritMain.v (with Convert.v, GridIO.v).  Specification vocabulary: LazuritMainSpec.v,
    ConvertSpec.v, FileSpec.v. *)

From Coq Require Import ZArith Ascii String Bool Lia List Permutation Sorted.
From Verif Require Import Py Heap GridModel GridSpec GridIO FileSpec StoreSpec Samples SamplesStore Convert ConvertSpec
  LazuritMain LazuritMainSpec LazuritMainProofs LazuritMainFinal LazuritMainBack LazuritMainCases.
Import ListNotations.
Open Scope list_scope.
Open Scope nat_scope.

(* ================================================================== *)
(** C98.  A directory with the two files of every block of the list [bs] and no other '.TEC'
    files.  The stored file, read in any state, holds exactly one zone for every block, in the
    order of the names of files: with the nodes of the block, two triangles for every cell and the
    values in the order of the file, the friction with the opposite sign.  If three triangles share an
    edge, or if there is no cell at all, then nothing is stored. *)
Theorem C98_blocks : forall {F : FloatOps} opp neg, faithful_numbers -> negates opp neg ->
  forall dir bs nm bk, NoDup (map fst dir) ->
  Permutation (filter (contains (lit ".TEC")) (map fst dir)) (map grid_name bs ++ map solution_name bs) ->
  (forall s, In s bs -> block_of dir s (nm s) (bk s)) ->
  exists bs' zrs, Permutation bs' bs /\ StronglySorted text_le bs' /\ Forall2 (fun s zr => zone_of_block opp (nm s) (bk s) zr) bs' zrs /\
    (no_degenerate zrs -> ~ three_share zrs -> (exists zr, In zr zrs /\ zr_conn zr <> []) ->
     forall h, exists out h', lazurit_to_crystal neg dir h = (Ok out, h') /\
       forall h0, exists h2, load true out h0 = (Ok tt, h2) /\ grid_ok h2 /\ holds_zones zrs h2) /\
    (three_share zrs -> forall h, fst (lazurit_to_crystal neg dir h) = Raise EException) /\
    ((forall zr, In zr zrs -> zr_conn zr = []) -> forall h, fst (lazurit_to_crystal neg dir h) = Raise EIndexError).
Proof. exact @lazurit_ok. Qed.
Print Assumptions C98_blocks.

(** C98.  Conversely: of files of which only the sizes are known, a grid is stored only if all
    of them hold a complete block of these sizes.  (A file that is cut off is never taken.) *)
Theorem C98_only_complete : forall {F : FloatOps} neg dir bs gt st si sj h out h', only_numbers neg -> NoDup (map fst dir) ->
  Permutation (filter (contains (lit ".TEC")) (map fst dir)) (map grid_name bs ++ map solution_name bs) ->
  (forall s, In s bs -> sized_pair dir s (gt s) (st s) (si s) (sj s)) ->
  lazurit_to_crystal neg dir h = (Ok out, h') ->
  forall s, In s bs -> exists b, wb_i b = si s /\ wb_j b = sj s /\ block_files (gt s) (st s) b.
Proof. exact @lazurit_only. Qed.
Print Assumptions C98_only_complete.

(** C98.  A block with a third size other than 1 is refused, and the memory is as before. *)
Theorem C98_one_layer : forall {F : FloatOps} neg dir bs s gt k, NoDup (map fst dir) ->
  Permutation (filter (contains (lit ".TEC")) (map fst dir)) (map grid_name bs ++ map solution_name bs) -> In s bs -> In (grid_name s, gt) dir ->
  third_size gt k -> k <> 1%Z ->
  forall h, exists e, lazurit_to_crystal neg dir h = (Raise e, h).
Proof. exact @not_flat. Qed.
Print Assumptions C98_one_layer.

(** Two blocks of one cell each, and another file. *)
Example C98_example : @faithful_numbers ZOps /\ @negates ZOps Z.opp negz /\ @only_numbers ZOps negz /\ NoDup (map fst two_blocks) /\
  Permutation (filter (contains (lit ".TEC")) (map fst two_blocks)) (map grid_name two_names ++ map solution_name two_names) /\
  (forall s, In s two_names -> block_of two_blocks s (lit "B-1") (blocks_of s)).
Proof.
  split; [exact Z_faithful|]. split; [exact negz_ok|]. split; [exact negz_number|]. split; [exact two_nodup|]. split; [exact two_files|exact two_block].
Qed.

(** The stored file has two zones with two triangles each, in one of the two orders. *)
Example C98_example_result : exists out h' zrs, @lazurit_to_crystal ZOps negz two_blocks empty_heap = (Ok out, h') /\ Permutation zrs [cell_zone 0 1; cell_zone 10 9] /\
  forall h0, exists h2, load true out h0 = (Ok tt, h2) /\ @grid_ok ZOps h2 /\ @holds_zones ZOps zrs h2.
Proof. exact two_run. Qed.

Example C98_example_layers : third_size (SamplesIO.text_of ["a"; "b"; "c"; "I= 2 J= 2 K= 5"]%string) 5.
Proof. eexists. eexists. split; [vm_compute; reflexivity|]. split; vm_compute; reflexivity. Qed.

(* ================================================================== *)
(** C99.  Different blocks give zones with different names: false.  The name is the end of the name
    of the file from its last letter B on; wing_B-1 and tail_B-1 both become B-1, and no error
    is reported. *)
Theorem C99_names_refuted : exists (F : FloatOps) opp neg dir bs nm bk out h' zrs,
  faithful_numbers /\ negates opp neg /\ NoDup (map fst dir) /\ NoDup bs /\
  Permutation (filter (contains (lit ".TEC")) (map fst dir)) (map grid_name bs ++ map solution_name bs) /\
  (forall s, In s bs -> block_of dir s (nm s) (bk s)) /\
  lazurit_to_crystal neg dir empty_heap = (Ok out, h') /\
  (forall h0, exists h2, load true out h0 = (Ok tt, h2) /\ holds_zones zrs h2) /\
  List.length zrs = 2 /\ ~ NoDup (map zr_name zrs).
Proof. exact same_names. Qed.
Print Assumptions C99_names_refuted.

(** C99, what holds: two files whose zones have the same name end alike, from the last letter B up
    to the last four characters. *)
Theorem C99_names_partial : forall f1 f2 name, names_zone f1 name -> names_zone f2 name ->
  exists p1 p2 e1 e2, f1 = p1 ++ name ++ e1 /\ f2 = p2 ++ name ++ e2 /\ List.length e1 = 4 /\ List.length e2 = 4.
Proof. exact names_end. Qed.
Print Assumptions C99_names_partial.

(** C99.  All blocks without a letter B in the names of their files are called None. *)
Theorem C99_no_name : forall file, ~ In "B"%char file -> zone_title file = lit "None".
Proof. exact title_none. Qed.
Print Assumptions C99_no_name.

Example C99_example : names_zone (lit "TEC_WALL_Grid_T-15000_B-1.TEC") (lit "B-1") /\ names_zone (lit "TEC_WALL_Grid_T-20000_B-1.TEC") (lit "B-1") /\
  ~ In "B"%char (lit "TEC_WALL_Grid_1.TEC").
Proof.
  split; [|split].
  - exists (lit "TEC_WALL_Grid_T-15000_"), (lit "-1"), (lit ".TEC"). split; [reflexivity|]. split; [reflexivity|]. split; [|reflexivity].
    cbn. intros K. repeat destruct K as [K|K]; try discriminate; auto.
  - exists (lit "TEC_WALL_Grid_T-20000_"), (lit "-1"), (lit ".TEC"). split; [reflexivity|]. split; [reflexivity|]. split; [|reflexivity].
    cbn. intros K. repeat destruct K as [K|K]; try discriminate; auto.
  - cbn. intros K. repeat destruct K as [K|K]; try discriminate; auto.
Qed.
