(** Property theorems about calculated data, merge and split (C28 - C31). *)

From Coq Require Import ZArith NArith Ascii String Bool Lia List Permutation.
From Verif Require Import Py PyLemmas Heap HeapLemmas GridModel GridSpec DecompSpec GridIO FileSpec StoreSpec Utils
  LoadProps Samples SamplesIO SamplesStore Driver DriverSpec DriverProofs MergeProofs StrategyProofs SamplesDriver.
Import ListNotations.
Open Scope list_scope.
Open Scope nat_scope.

(** C28.  One timestamp.  If the txt files have the same header and list every face
    number exactly once, the merged file is written, and loading it gives, in any grid
    object, the title, zones, faces and corner positions of the original file with
    exactly the values written for the face numbers. *)
Theorem C28_merge_timestamp : forall {F : FloatOps} grid_text txts vars rows h hl evs,
  faithful_numbers -> load true grid_text h = (Ok tt, hl) -> file_form [] (file_lines grid_text) evs ->
  no_degenerate (zones_of evs) -> faces_in (zones_of evs) <> 0 -> plain_name (g_name hl) ->
  covering (zones_of evs) txts vars rows ->
  exists text h', merge_one grid_text txts h = (Ok text, h') /\ h' = set_f_data hl (f_data h') /\
    forall h1, exists h2, load true text h1 = (Ok tt, h2) /\
      merged_grid (g_name hl) (zones_of evs) vars rows h2.
Proof. exact @merge_one_main. Qed.
Print Assumptions C28_merge_timestamp.

(** C28.  The order in which the txt files are read does not matter: the same file is
    written. *)
Theorem C28_order_irrelevant : forall {F : FloatOps} grid_text txts txts' vars rows h hl evs,
  load true grid_text h = (Ok tt, hl) -> file_form [] (file_lines grid_text) evs ->
  no_degenerate (zones_of evs) -> covering (zones_of evs) txts vars rows -> Permutation txts txts' ->
  fst (merge_one grid_text txts' h) = fst (merge_one grid_text txts h).
Proof. exact @merge_order_main. Qed.
Print Assumptions C28_order_irrelevant.

(** C28.  The whole tool: for every timestamp found in the directory there is one
    output file, with the right name and the data of this timestamp. *)
Theorem C28_merge : forall {F : FloatOps} nm grid_text d ms evs h0,
  faithful_numbers -> file_form [] (file_lines grid_text) evs ->
  no_degenerate (zones_of evs) -> ~ three_share (zones_of evs) -> faces_in (zones_of evs) <> 0 ->
  (forall fn, In fn (map fst d) -> exists b, is_filename_correct_crys_txt_file fn nm = Ok b) ->
  sublist_of (fun fn => is_filename_correct_crys_txt_file fn nm = Ok true) (map fst d) ms ->
  (forall tm fs, In (tm, fs) (group_txt_files_by_timestamps ms) ->
     exists txts vars rows, opened d fs txts /\ covering (zones_of evs) txts vars rows) ->
  exists outs h', merge nm grid_text d h0 = (Ok outs, h') /\
    Forall2 (fun g out => fst out = nm ++ lit "_r_" ++ fst g ++ lit ".dat" /\
      forall txts vars rows, opened d (snd g) txts -> covering (zones_of evs) txts vars rows ->
      forall h1, exists h2, load true (snd out) h1 = (Ok tt, h2) /\
        merged_grid (titled evs) (zones_of evs) vars rows h2) (group_txt_files_by_timestamps ms) outs.
Proof. exact @merge_main. Qed.
Print Assumptions C28_merge.

Example C28_example :
  @file_form ZOps [] (file_lines two_zones) [ETitle (lit "plate"); EZone zoneA; EZone zoneB] /\
  no_degenerate [zoneA; zoneB] /\ ~ three_share [zoneA; zoneB] /\ faces_in [zoneA; zoneB] = 3 /\
  covering [zoneA; zoneB] [txt1; txt2] [lit "T"; lit "Hi"] [[10; 11]; [20; 21]; [30; 31]]%Z /\
  sublist_of (fun fn => is_filename_correct_crys_txt_file fn (lit "wing") = Ok true)
    [lit "wing_00000_000000000010.txt"; lit "report.txt"; lit "wing_00001_000000000010.txt"]
    [lit "wing_00000_000000000010.txt"; lit "wing_00001_000000000010.txt"] /\
  group_txt_files_by_timestamps [lit "wing_00000_000000000010.txt"; lit "wing_00001_000000000010.txt"] =
    [(lit "000000000010", [lit "wing_00000_000000000010.txt"; lit "wing_00001_000000000010.txt"])] /\
  let '(r, h) := for_each [txt1; txt2] load_faces_calc_data plate in
  r = Ok tt /\ map (fun f => map snd (f_data h f)) (g_faces h) = [[10; 11]; [20; 21]; [30; 31]]%Z.
Proof.
  split; [exact two_zones_form|]. split; [exact two_zones_nd|]. split; [exact two_zones_manifold|].
  split; [reflexivity|]. split; [exact txt12_covering|]. split.
  { apply sub_keep; [vm_compute; reflexivity|]. apply sub_drop; [vm_compute; discriminate|].
    apply sub_keep; [vm_compute; reflexivity|]. constructor. }
  vm_compute. repeat split.
Qed.

(** C28.  The condition on the headers is needed: a variable that does not occur in the
    header of the file with face 0 is not written. *)
Theorem C28_mixed_headers_lose_data : exists (F : FloatOps) h h' txts f v,
  fst (for_each txts load_faces_calc_data h) = Ok tt /\ h' = snd (for_each txts load_faces_calc_data h) /\
  In f (g_faces h') /\ dget str_dec (f_data h' f) (lit "Q") = Some v /\ ~ In (lit "Q") (grid_vars h').
Proof.
  exists ZOps, plate, (snd (for_each [txt1; txt3] load_faces_calc_data plate)), [txt1; txt3], 1, 5%Z.
  split; [vm_compute; reflexivity|]. split; [reflexivity|].
  split; [vm_compute; auto|]. split; [vm_compute; reflexivity|].
  vm_compute. intuition discriminate.
Qed.
Print Assumptions C28_mixed_headers_lose_data.

(** C29.  A calc file whose numbers are positions of faces is accepted; nothing but the
    data of faces changes; a face whose number occurs gets exactly the variables and
    values of its last line; the data of all other faces stay. *)
Theorem C29_only_listed_faces : forall {F : FloatOps} text vars rows h,
  calc_file text vars rows -> NoDup (g_faces h) ->
  (forall r, In r rows -> (0 <= fst r < Z.of_nat (length (g_faces h)))%Z) ->
  exists h', load_faces_calc_data text h = (Ok tt, h') /\ h' = set_f_data h (f_data h') /\
    (forall i f vs, nth_error (g_faces h) i = Some f -> last_row rows i vs ->
       f_data h' f = dict_of str_dec (combine vars vs)) /\
    (forall i f, nth_error (g_faces h) i = Some f -> ~ In (Z.of_nat i) (map fst rows) -> f_data h' f = f_data h f) /\
    (forall f, ~ In f (g_faces h) -> f_data h' f = f_data h f).
Proof. exact @calc_main. Qed.
Print Assumptions C29_only_listed_faces.

(** C29.  Only such files are accepted, except that numbers counted from the end are
    accepted, too. *)
Theorem C29_accepts_only : forall {F : FloatOps} text h h',
  load_faces_calc_data text h = (Ok tt, h') ->
  exists vars rows, calc_file text vars rows /\
    forall r, In r rows -> (- Z.of_nat (length (g_faces h)) <= fst r < Z.of_nat (length (g_faces h)))%Z.
Proof. exact @calc_accepts_only. Qed.
Print Assumptions C29_accepts_only.

(** C29.  With a negative number the claim is false: a face whose number does not occur
    in the file is changed. *)
Theorem C29_negative_number_refuted : exists (F : FloatOps) text vars rows h i f,
  calc_file text vars rows /\ NoDup (g_faces h) /\ fst (load_faces_calc_data text h) = Ok tt /\
  nth_error (g_faces h) i = Some f /\ ~ In (Z.of_nat i) (map fst rows) /\
  f_data (snd (load_faces_calc_data text h)) f <> f_data h f.
Proof.
  exists ZOps, txt_neg, [lit "T"], [(-1, [5])]%Z, plate, 2, 2.
  split; [exact txt_neg_file|]. split; [destruct plate_ok as ([[] _] & _); auto|].
  split; [vm_compute; reflexivity|]. split; [vm_compute; reflexivity|].
  split; [cbn; intuition discriminate|]. vm_compute. discriminate.
Qed.
Print Assumptions C29_negative_number_refuted.

Example C29_example : calc_file txt1 [lit "T"; lit "Hi"] [(2, [30; 31]); (0, [10; 11])]%Z /\
  let '(r, h) := load_faces_calc_data txt1 plate in
  r = Ok tt /\ map (fun f => map snd (f_data h f)) (g_faces h) = [[10; 11]; [8; 80]; [30; 31]]%Z.
Proof. split; [exact txt1_file|]. vm_compute. repeat split. Qed.

(** C30.  Strategy n<k> with k greater than the number of fixed zones, all of which
    exist: split succeeds; the zones with the given names stay with their faces, and
    k minus the number of fixed names zones are added.  For one domain without fixed
    zones it is the mono decomposition. *)
Theorem C30_exact : forall {F : FloatOps} text strat fixed k rf t h hl evs,
  faithful_numbers -> file_form [] (file_lines text) evs -> no_degenerate (zones_of evs) ->
  faces_in (zones_of evs) <> 0 -> load true text (new_grid h) = (Ok tt, hl) ->
  asks strat "n"%char k -> (Z.of_nat (length fixed) < k)%Z ->
  (forall nm, In nm fixed -> In nm (map (z_name hl) (g_zones hl))) -> t <> ToNothing ->
  exists out h' K T, split (Some text) (lit ".dat") strat fixed rf t h = (Ok out, h') /\
    zones_ok h' /\ zone_lists_ok h' /\ g_zones h' = K ++ T /\
    zones_named hl fixed K /\ (forall z, In z K -> z_faces h' z = z_faces hl z /\ z_name h' z = z_name hl z) /\
    Z.of_nat (length T) = (k - Z.of_nat (length fixed))%Z /\
    (fixed = [] -> k = 1%Z -> forall z, In z T -> z_name h' z = lit "mono" /\ z_faces h' z = g_faces h').
Proof. exact @split_exact_main. Qed.
Print Assumptions C30_exact.

(** C30.  There are exactly k zones if the fixed names are different and the zones of
    the file have different names. *)
Theorem C30_exact_count : forall {F : FloatOps} text strat fixed k rf t h hl evs,
  faithful_numbers -> file_form [] (file_lines text) evs -> no_degenerate (zones_of evs) ->
  faces_in (zones_of evs) <> 0 -> load true text (new_grid h) = (Ok tt, hl) ->
  asks strat "n"%char k -> (Z.of_nat (length fixed) < k)%Z ->
  (forall nm, In nm fixed -> In nm (map (z_name hl) (g_zones hl))) -> t <> ToNothing ->
  NoDup fixed -> NoDup (map (z_name hl) (g_zones hl)) ->
  exists out h', split (Some text) (lit ".dat") strat fixed rf t h = (Ok out, h') /\
    Z.of_nat (length (g_zones h')) = k.
Proof. exact @split_count_main. Qed.
Print Assumptions C30_exact_count.

(** C30.  Without this condition the claim is false: a name given twice is counted
    twice. *)
Theorem C30_exact_count_refuted : exists (F : FloatOps) text strat fixed k rf h hl,
  load true text (new_grid h) = (Ok tt, hl) /\ asks strat "n"%char k /\ (Z.of_nat (length fixed) < k)%Z /\
  (forall nm, In nm fixed -> In nm (map (z_name hl) (g_zones hl))) /\
  fst (split_decompose text strat fixed rf h) = Ok tt /\
  Z.of_nat (length (g_zones (snd (split_decompose text strat fixed rf h)))) <> k.
Proof.
  exists ZOps, two_zones, (lit "n3"), [lit "A"; lit "A"], 3%Z, 1%Z, empty_heap, plate.
  split; [exact plate_run|]. split; [exists (lit "3"); split; reflexivity|]. split; [reflexivity|].
  assert (E : map (z_name plate) (g_zones plate) = [lit "A"; lit "B"]) by (vm_compute; reflexivity).
  split; [rewrite E; intros nm [<-|[<-|[]]]; simpl; auto|].
  split; [vm_compute; reflexivity|]. vm_compute. discriminate.
Qed.
Print Assumptions C30_exact_count_refuted.

(** C30.  Strategy h<n>: if split returns, the zones with the given names stay with
    their faces, and at most 2^n zones are added; n is not negative.  For one domain
    without fixed zones it is the mono decomposition. *)
Theorem C30_hierarchical : forall {F : FloatOps} text sf strat fixed n rf t h out h' evs, order_ok ->
  file_form [] (file_lines text) evs -> no_degenerate (zones_of evs) ->
  asks strat "h"%char n ->
  split (Some text) sf strat fixed rf t h = (Ok out, h') ->
  exists hl K N, load true text (new_grid h) = (Ok tt, hl) /\ g_zones h' = K ++ N /\
    zones_named hl fixed K /\ (forall z, In z K -> z_faces h' z = z_faces hl z /\ z_name h' z = z_name hl z) /\
    (0 <= n)%Z /\ (Z.of_nat (length N) <= 2 ^ n)%Z /\ zones_ok h' /\ zone_lists_ok h' /\
    (fixed = [] -> n = 0%Z -> exists z, N = [z] /\ z_name h' z = lit "mono" /\ z_faces h' z = g_faces h').
Proof. exact @split_hier_main. Qed.
Print Assumptions C30_hierarchical.

(** C30.  Split raises for a missing fixed zone, for an unknown strategy and for k not
    greater than the number of fixed zones (in particular for k = 0). *)
Theorem C30_raises : forall {F : FloatOps} text strat fixed rf t h hl,
  load true text (new_grid h) = (Ok tt, hl) ->
  (exists nm, In nm fixed /\ ~ In nm (map (z_name hl) (g_zones hl))) \/
  (exists c s, strat = c :: s /\ c <> "h"%char /\ c <> "n"%char) \/
  (exists k, asks strat "n"%char k /\ (k <= Z.of_nat (length fixed))%Z) ->
  fst (split (Some text) (lit ".dat") strat fixed rf t h) = Raise EException.
Proof. exact @split_raises_main. Qed.
Print Assumptions C30_raises.

(** C30.  Split returns only for an existing .dat file that can be loaded, existing
    fixed zones and a strategy h<n> or n<k> with k greater than the number of fixed
    zones. *)
Theorem C30_accepts_only : forall {F : FloatOps} text sf strat fixed rf t h out h',
  split text sf strat fixed rf t h = (Ok out, h') ->
  exists s hl n, text = Some s /\ sf = lit ".dat" /\ load true s (new_grid h) = (Ok tt, hl) /\
    (forall nm, In nm fixed -> In nm (map (z_name hl) (g_zones hl))) /\ t <> ToNothing /\
    (asks strat "h"%char n \/ asks strat "n"%char n /\ (Z.of_nat (length fixed) < n)%Z).
Proof. exact @split_accepts_main. Qed.
Print Assumptions C30_accepts_only.

(** C30.  The written .dat file holds the grid after split. *)
Theorem C30_written : forall {F : FloatOps} text sf strat fixed rf h s h' evs,
  order_ok -> faithful_numbers -> file_form [] (file_lines text) evs ->
  no_degenerate (zones_of evs) -> faces_in (zones_of evs) <> 0 ->
  split (Some text) sf strat fixed rf ToDat h = (Ok (WDat s), h') ->
  (forall z, In z (g_zones h') -> plain_name (z_name h' z)) ->
  forall h1, exists h2, load true s h1 = (Ok tt, h2) /\ same_contents (grid_vars h') h' h2 /\
    In (lit "RecoveryFactor") (grid_vars h').
Proof. exact @split_written_main. Qed.
Print Assumptions C30_written.

Example C30_example :
  load true two_zones (new_grid empty_heap) = (Ok tt, plate) /\ asks (lit "n2") "n"%char 2 /\
  map (z_name plate) (g_zones plate) = [lit "A"; lit "B"] /\
  let '(r, h) := split_decompose two_zones (lit "n2") [lit "B"] 1%Z empty_heap in
  r = Ok tt /\ map (z_name h) (g_zones h) = [lit "B"; lit "farhat 0"] /\ map (z_faces h) (g_zones h) = [[2]; [0; 1]].
Proof.
  split; [exact plate_run|]. split; [exists (lit "2"); split; reflexivity|]. vm_compute. repeat split.
Qed.

Example C30_example_hierarchical :
  @file_form ZOps [] (file_lines tilted) [ETitle (lit "hill"); EZone zoneA3; EZone zoneB3] /\
  no_degenerate [zoneA3; zoneB3] /\ asks (lit "h1") "h"%char 1 /\
  (let '(r, h) := split_decompose tilted (lit "h1") [] 1%Z empty_heap in
   r = Ok tt /\ map (z_faces h) (g_zones h) = [[1]; [0; 2]]) /\
  match fst (split (Some tilted) (lit ".dat") (lit "h1") [] 1%Z ToDat empty_heap) with Ok _ => True | Raise _ => False end.
Proof.
  split; [exact tilted_form|]. split; [exact tilted_nd|]. split; [exists (lit "1"); split; reflexivity|].
  split; vm_compute; repeat split.
Qed.

(** C31.  After split every face has a recovery factor: its own if the file has one,
    the given default otherwise; all other data are those of the file. *)
Theorem C31_recovery_factor : forall {F : FloatOps} text sf strat fixed rf t h out h' evs, order_ok ->
  file_form [] (file_lines text) evs -> no_degenerate (zones_of evs) ->
  split (Some text) sf strat fixed rf t h = (Ok out, h') ->
  exists hl, load true text (new_grid h) = (Ok tt, hl) /\ g_faces h' = g_faces hl /\
    forall f, In f (g_faces h') ->
      dget str_dec (f_data h' f) (lit "RecoveryFactor") =
        Some (match dget str_dec (f_data hl f) (lit "RecoveryFactor") with Some v => v | None => rf end) /\
      forall k, k <> lit "RecoveryFactor" -> dget str_dec (f_data h' f) k = dget str_dec (f_data hl f) k.
Proof. exact @split_rf_main. Qed.
Print Assumptions C31_recovery_factor.

Example C31_example :
  let '(r, h) := split_decompose tilted (lit "h1") [] 42%Z empty_heap in
  let '(r', h') := complete_rf 42%Z (set_f_data plate (upd (f_data plate) 1 [(lit "RecoveryFactor", 3%Z)])) in
  r = Ok tt /\ map (fun f => map snd (f_data h f)) (g_faces h) = [[7; 70; 42]; [8; 80; 42]; [9; 90; 42]]%Z /\
  r' = Ok tt /\ map (fun f => map snd (f_data h' f)) (g_faces h') = [[7; 70; 42]; [3]; [9; 90; 42]]%Z.
Proof. vm_compute. repeat split. Qed.
