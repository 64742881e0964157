(** C36, C37, C39, C60: edges between two zones; C108: storing of transformed grids. *)

From Coq Require Import ZArith NArith Ascii String Bool Lia List Permutation.
From Verif Require Import Py Heap GridModel GridSpec DecompSpec GridIO FileSpec StoreSpec Atomic AtomicSpec AtomicActs
  AtomicFinal Samples SamplesIO SamplesStore SamplesAtomic AcrossMain.
Import ListNotations.
Open Scope list_scope.
Open Scope nat_scope.

(** C36.  Division of any inner edge by a new point, whatever the zones of its faces: all the
    new objects are in the zone [z] of the first face and in the lists of this zone only
    ([sound]: the grid is consistent except that the lists of nodes and edges of zones need
    not fit their faces). *)
Theorem C36_any_zones_partial : forall {F : FloatOps} h edge f1 f2 p n1 n2, sound h -> no_double_faces h -> In edge (g_edges h) ->
  e_faces h edge = [f1; f2] -> e_nodes h edge = [n1; n2] -> new_point h p ->
  exists z h' n3 n4 n e1 e2 e3 e4 g1 g2 g3 g4 P,
    In n3 (f_nodes h f1) /\ n3 <> n1 /\ n3 <> n2 /\ In n4 (f_nodes h f2) /\ n4 <> n1 /\ n4 <> n2 /\ n3 <> n4 /\
    P = mkPatch [f1; f2] [edge] [(n, p)]
      [(e1, (n1, n)); (e2, (n2, n)); (e3, (n3, n)); (e4, (n4, n))]
      [(g1, (n, n2, n3), f1); (g2, (n, n1, n3), f1); (g3, (n, n1, n4), f2); (g4, (n, n2, n4), f2)] /\
    f_zone h f1 = Some z /\ cut_edge edge p h = (Ok true, h') /\ sound h' /\ no_double_faces h' /\ counts h h' 1 3 2 /\
    patched_to (fun _ => Some z) h h' P /\ members_to z h h' P.
Proof. exact @cut_across. Qed.
Print Assumptions C36_any_zones_partial.

Example C36_any_zones_example : sound wheel /\ no_double_faces wheel /\ In 0 (g_edges wheel) /\ e_faces wheel 0 = [0; 5] /\
  e_nodes wheel 0 = [0; 1] /\ new_point wheel (1, 1, 1)%Z /\ f_zone wheel 0 = Some 0 /\ f_zone wheel 5 = Some 1 /\
  let h' := snd (cut_edge (F := ZOps) 0 (1, 1, 1)%Z wheel) in
  map (z_faces h') [0; 1] = [[1; 2; 6; 7; 8; 9]; [3; 4]] /\ map (z_nodes h') [0; 1] = [[0; 1; 2; 3; 4; 7]; [0; 1; 4; 5; 6]].
Proof.
  split; [exact (PatchDone.consistent_sound _ wheel_ok)|]. split; [exact wheel_single|]. split; [mem|].
  split; [vm_compute; reflexivity|]. split; [vm_compute; reflexivity|].
  split; [apply new_pointb_ok; vm_compute; reflexivity|]. vm_compute. auto.
Qed.

(** C37.  The same for the flip of the longest edge of a face: the new faces are in the zone
    of the given face. *)
Theorem C37_any_zones_partial : forall {F : FloatOps}, order_ok -> forall h face, sound h -> no_double_faces h -> In face (g_faces h) ->
  exists edge, longest h face edge /\
    (length (e_faces h edge) <> 2 -> collapse_face face h = (Ok false, h)) /\
    (forall other, other <> face -> In other (e_faces h edge) -> free_diagonal h edge ->
     exists z h' n1 n2 n3 n4 e g1 g2 P, e_nodes h edge = [n1; n2] /\
       Permutation (f_nodes h face) [n1; n2; n3] /\ Permutation (f_nodes h other) [n1; n2; n4] /\
       P = mkPatch [face; other] [edge] [] [(e, (n3, n4))] [(g1, (n1, n3, n4), face); (g2, (n2, n3, n4), face)] /\
       f_zone h face = Some z /\ collapse_face face h = (Ok true, h') /\ sound h' /\ counts h h' 0 0 0 /\
       patched_to (fun _ => Some z) h h' P /\ members_to z h h' P).
Proof. exact @flip_across. Qed.
Print Assumptions C37_any_zones_partial.

(** The grid of six faces after the linear decomposition in three zones: the longest edge of
    the face 2 has the face 1 of another zone. *)
Example C37_any_zones_example : let h := snd (decompose_linear (F := ZOps) 3 None wheel) in
  sound h /\ no_double_faces h /\ In 2 (g_faces h) /\ e_faces h 4 = [1; 2] /\ free_diagonal h 4 /\
  f_zone h 1 <> f_zone h 2 /\
  let h' := snd (collapse_face (F := ZOps) 2 h) in
  map (f_nodes h') (z_faces h' 3) = [[0; 4; 5]; [0; 4; 2]; [3; 4; 2]] /\ map (f_nodes h') (z_faces h' 2) = [[0; 1; 2]].
Proof.
  split; [apply PatchDone.consistent_sound, consistentb_ok; vm_compute; reflexivity|].
  split; [apply no_doubleb_ok; vm_compute; reflexivity|]. split; [mem|].
  split; [vm_compute; reflexivity|]. split; [apply free_diagonalb_ok; vm_compute; reflexivity|]. vm_compute. repeat split; discriminate.
Qed.

(** C39.  The same for the division of an inner edge by two new points. *)
Theorem C39_any_zones_partial : forall {F : FloatOps} h edge f1 f2 p1 p2 n1 n2, sound h -> no_double_faces h -> In edge (g_edges h) ->
  e_faces h edge = [f1; f2] -> e_nodes h edge = [n1; n2] -> new_point h p1 -> new_point h p2 -> rnd p1 <> rnd p2 ->
  exists z h' n3 n6 n4 n5 e1 e2 e3 e4 e5 e6 e7 g1 g2 g3 g4 g5 g6 P,
    In n3 (f_nodes h f1) /\ n3 <> n1 /\ n3 <> n2 /\ In n6 (f_nodes h f2) /\ n6 <> n1 /\ n6 <> n2 /\ n3 <> n6 /\
    P = mkPatch [f1; f2] [edge] [(n4, p1); (n5, p2)]
      [(e1, (n1, n4)); (e2, (n2, n5)); (e3, (n4, n5)); (e4, (n3, n4)); (e5, (n3, n5)); (e6, (n4, n6)); (e7, (n5, n6))]
      [(g1, (n1, n3, n4), f1); (g2, (n3, n4, n5), f1); (g3, (n2, n3, n5), f1);
       (g4, (n1, n4, n6), f2); (g5, (n4, n5, n6), f2); (g6, (n2, n5, n6), f2)] /\
    f_zone h f1 = Some z /\ cut_edge_with_two_nodes edge p1 p2 h = (Ok true, h') /\ sound h' /\ no_double_faces h' /\
    counts h h' 2 6 4 /\ patched_to (fun _ => Some z) h h' P /\ members_to z h h' P.
Proof. exact @inner_two_across. Qed.
Print Assumptions C39_any_zones_partial.

Example C39_any_zones_example : sound wheel /\ no_double_faces wheel /\ In 6 (g_edges wheel) /\ e_faces wheel 6 = [2; 3] /\
  e_nodes wheel 6 = [0; 4] /\ new_point wheel (7, 41, 1)%Z /\ new_point wheel (-7, 41, 1)%Z /\ f_zone wheel 2 <> f_zone wheel 3.
Proof.
  split; [exact (PatchDone.consistent_sound _ wheel_ok)|]. split; [exact wheel_single|]. split; [mem|].
  split; [vm_compute; reflexivity|]. split; [vm_compute; reflexivity|].
  split; [apply new_pointb_ok; vm_compute; reflexivity|]. split; [apply new_pointb_ok; vm_compute; reflexivity|]. vm_compute. discriminate.
Qed.

(** C60.  Sequences of calls (all but collapse_edge) for a loaded grid without conditions on
    zones: incidence, zones of faces, numbers and merged nodes stay right. *)
Theorem C60_any_zones : forall {F : FloatOps} text h h' evs l, load true text h = (Ok tt, h') ->
  file_form [] (file_lines text) evs -> no_degenerate (zones_of evs) -> no_double_faces h' -> all_allowed_any h' l ->
  exists h'', perform_all l h' = (Ok tt, h'') /\ sound h'' /\ no_double_faces h''.
Proof. exact @sequence_across. Qed.
Print Assumptions C60_any_zones.

(** C60.  Any decomposition then makes the grid consistent again. *)
Theorem C60_repair : forall {F : FloatOps} h a, sound h -> no_double_faces h -> decomposing a -> allowed h a ->
  exists h', perform a h = (Ok tt, h') /\ consistent h' /\ no_double_faces h'.
Proof. exact @repair_main. Qed.
Print Assumptions C60_repair.

Example C60_any_zones_example : load true two_zones empty_heap = (Ok tt, plate) /\
  file_form [] (file_lines two_zones) [ETitle (lit "plate"); EZone zoneA; EZone zoneB] /\ no_degenerate [zoneA; zoneB] /\ no_double_faces plate /\
  all_allowed_any plate [ACut 2 (1, 2, 3)%Z; AFlip 1; AMark] /\ ~ one_zone plate 2 /\
  decomposing (ADecompLinear (F := ZOps) 2 None) /\ forall h, allowed h (ADecompLinear 2 None).
Proof.
  split; [exact plate_run|]. split; [exact two_zones_form|]. split; [exact two_zones_nd|].
  split; [apply no_doubleb_ok; vm_compute; reflexivity|]. split; [apply all_allowed_anyb_ok; vm_compute; reflexivity|].
  split; [|split; [exact I|intros h; discriminate]].
  intros K. specialize (K 0 2). assert (e_faces plate 2 = [0; 2]) as E by (vm_compute; reflexivity). rewrite E in K.
  specialize (K ltac:(cbn; auto) ltac:(cbn; auto)). vm_compute in K. discriminate K.
Qed.

(** C108.  A loaded grid after any sequence of allowed calls (edges within one zone): it is
    stored, and loading the file into any grid gives the same contents. *)
Theorem C108_stored_partial : forall {F : FloatOps} text h h' evs l, faithful_numbers -> load true text h = (Ok tt, h') ->
  file_form [] (file_lines text) evs -> no_degenerate (zones_of evs) -> no_double_faces h' ->
  g_faces h' <> [] -> plain_name (g_name h') -> (forall s, In (Some s) (map new_name l) -> plain_name s) ->
  all_allowed h' l ->
  exists h'' s, perform_all l h' = (Ok tt, h'') /\ store h'' = Ok s /\
    forall h1, exists h2, load true s h1 = (Ok tt, h2) /\ same_contents (grid_vars h'') h'' h2.
Proof. exact @stored_main. Qed.
Print Assumptions C108_stored_partial.

(** C108.  The same for any edges (without collapse_edge) if a decomposition is the last call. *)
Theorem C108_repaired : forall {F : FloatOps} text h h' evs l a, faithful_numbers -> load true text h = (Ok tt, h') ->
  file_form [] (file_lines text) evs -> no_degenerate (zones_of evs) -> no_double_faces h' ->
  g_faces h' <> [] -> plain_name (g_name h') -> (forall s, In (Some s) (map new_name (l ++ [a])) -> plain_name s) ->
  all_allowed_any h' l -> decomposing a -> (forall h'', perform_all l h' = (Ok tt, h'') -> allowed h'' a) ->
  exists h2 h3 s, perform_all l h' = (Ok tt, h2) /\ perform a h2 = (Ok tt, h3) /\ store h3 = Ok s /\
    forall h4, exists h5, load true s h4 = (Ok tt, h5) /\ same_contents (grid_vars h3) h3 h5.
Proof. exact @stored_repaired. Qed.
Print Assumptions C108_repaired.

Example C108_example : faithful_numbers (F := ZOps) /\ load true two_zones empty_heap = (Ok tt, plate) /\
  file_form [] (file_lines two_zones) [ETitle (lit "plate"); EZone zoneA; EZone zoneB] /\ no_degenerate [zoneA; zoneB] /\ no_double_faces plate /\
  g_faces plate <> [] /\ plain_name (g_name plate) /\
  all_allowed plate [ADivide 1 (1, 2, 3)%Z; ADecompRandom (fun i => i * i + 1) 3 None; AMark] /\
  all_allowed_any plate [ACut 2 (1, 2, 3)%Z; AFlip 1; AMark].
Proof.
  split; [exact Z_faithful|]. split; [exact plate_run|]. split; [exact two_zones_form|]. split; [exact two_zones_nd|].
  split; [apply no_doubleb_ok; vm_compute; reflexivity|]. split; [vm_compute; discriminate|]. split; [exact (proj1 (proj2 plate_writable))|].
  split; [apply all_allowedb_ok; vm_compute; reflexivity|apply all_allowed_anyb_ok; vm_compute; reflexivity].
Qed.

(** C108 is false for edges between two zones: the stored file cannot be loaded. *)
Theorem C108_two_zones_refuted : exists (F : FloatOps) h l h' s, faithful_numbers /\ consistent h /\ no_double_faces h /\ writable h /\
  all_allowed_any h l /\ perform_all l h = (Ok tt, h') /\ sound h' /\ store h' = Ok s /\
  fst (load true s empty_heap) = Raise EException.
Proof. exact stored_cut. Qed.
Print Assumptions C108_two_zones_refuted.

(** C108 is false for edges between two zones: the stored file is loaded without an error, but
    gives another grid. *)
Theorem C108_silent_refuted : exists (F : FloatOps) h l h' s h2, faithful_numbers /\ consistent h /\ no_double_faces h /\ writable h /\
  all_allowed_any h l /\ perform_all l h = (Ok tt, h') /\ sound h' /\ store h' = Ok s /\
  load true s empty_heap = (Ok tt, h2) /\ ~ same_contents (grid_vars h') h' h2.
Proof. exact stored_flip. Qed.
Print Assumptions C108_silent_refuted.
