(** C34 - C40, C60: transformations of the grid. *)

From Coq Require Import ZArith NArith Ascii String Bool Lia List Permutation.
From Verif Require Import Py Heap GridModel GridSpec DecompSpec GridIO FileSpec Atomic AtomicSpec AtomicActs
  AtomicMain AtomicSeq AtomicFinal Samples SamplesIO SamplesStore SamplesAtomic.
Import ListNotations.
Open Scope list_scope.
Open Scope nat_scope.

(** C34.  Division of a face by a new point. *)
Theorem C34_divide_face : forall {F : FloatOps} h face p n1 n2 n3,
  consistent h -> In face (g_faces h) -> new_point h p -> f_nodes h face = [n1; n2; n3] ->
  exists h' n e4 e5 e6 f1 f2 f3, divide_face face p h = (Ok tt, h') /\ consistent h' /\ counts h h' 1 3 2 /\
    patched h h' (mkPatch [face] [] [(n, p)] [(e4, (n1, n)); (e5, (n2, n)); (e6, (n3, n))]
      [(f1, (n1, n2, n), face); (f2, (n2, n3, n), face); (f3, (n1, n3, n), face)]).
Proof. exact @divide_main. Qed.
Print Assumptions C34_divide_face.

Example C34_example : consistent wheel /\ In 4 (g_faces wheel) /\ new_point wheel (5, -20, 2)%Z /\
  f_nodes wheel 4 = [0; 5; 6] /\
  let h' := snd (divide_face (F := ZOps) 4 (5, -20, 2)%Z wheel) in
  map (f_nodes h') (g_faces h') = [[0; 1; 2]; [0; 2; 3]; [0; 3; 4]; [0; 4; 5]; [0; 6; 1]; [0; 5; 7]; [5; 6; 7]; [0; 6; 7]] /\
  map (f_glo h') (g_faces h') = [0; 1; 2; 3; 5; 4; 6; 7]%Z /\
  map (e_nodes h') (skipn 12 (g_edges h')) = [[0; 7]; [5; 7]; [6; 7]].
Proof.
  split; [exact wheel_ok|]. split; [mem|]. split; [apply new_pointb_ok; vm_compute; reflexivity|].
  split; [vm_compute; reflexivity|]. vm_compute. auto.
Qed.

(** C35.  Division of a border edge by a new point. *)
Theorem C35_cut_single_edge : forall {F : FloatOps} h edge face p n1 n2,
  consistent h -> In edge (g_edges h) -> e_faces h edge = [face] -> e_nodes h edge = [n1; n2] -> new_point h p ->
  exists h' n3 n e1 e2 e3 f1 f2, In n3 (f_nodes h face) /\ n3 <> n1 /\ n3 <> n2 /\
    cut_single_edge edge p h = (Ok true, h') /\ consistent h' /\ counts h h' 1 2 1 /\
    patched h h' (mkPatch [face] [edge] [(n, p)] [(e1, (n, n1)); (e2, (n, n2)); (e3, (n, n3))]
      [(f1, (n3, n, n1), face); (f2, (n3, n, n2), face)]).
Proof. exact @single_main. Qed.
Print Assumptions C35_cut_single_edge.

(** C35.  Nothing changes with other edges. *)
Theorem C35_other_edges : forall {F : FloatOps} h edge p,
  length (e_faces h edge) <> 1 -> cut_single_edge edge p h = (Ok false, h).
Proof. exact @cut_single_edge_no. Qed.
Print Assumptions C35_other_edges.

Example C35_example : consistent wheel /\ In 3 (g_edges wheel) /\ e_faces wheel 3 = [1] /\ e_nodes wheel 3 = [2; 3] /\
  new_point wheel (0, 45, 1)%Z /\
  let h' := snd (cut_single_edge (F := ZOps) 3 (0, 45, 1)%Z wheel) in
  length (g_faces h') = 7 /\ length (g_edges h') = 14 /\ length (g_nodes h') = 8 /\
  map (f_zone h') (skipn 5 (g_faces h')) = [Some 0; Some 0].
Proof.
  split; [exact wheel_ok|]. split; [mem|]. split; [vm_compute; reflexivity|]. split; [vm_compute; reflexivity|].
  split; [apply new_pointb_ok; vm_compute; reflexivity|]. vm_compute. auto.
Qed.

(** C36.  Division of an inner edge by a new point; the two faces of the edge are in one
    zone (see the counterexample below) and no two faces have the same corners. *)
Theorem C36_cut_edge_partial : forall {F : FloatOps} h edge f1 f2 p n1 n2,
  consistent h -> no_double_faces h -> In edge (g_edges h) -> e_faces h edge = [f1; f2] ->
  e_nodes h edge = [n1; n2] -> new_point h p -> f_zone h f1 = f_zone h f2 ->
  exists h' n3 n4 n e1 e2 e3 e4 g1 g2 g3 g4,
    In n3 (f_nodes h f1) /\ n3 <> n1 /\ n3 <> n2 /\ In n4 (f_nodes h f2) /\ n4 <> n1 /\ n4 <> n2 /\ n3 <> n4 /\
    cut_edge edge p h = (Ok true, h') /\ consistent h' /\ counts h h' 1 3 2 /\
    patched h h' (mkPatch [f1; f2] [edge] [(n, p)]
      [(e1, (n1, n)); (e2, (n2, n)); (e3, (n3, n)); (e4, (n4, n))]
      [(g1, (n, n2, n3), f1); (g2, (n, n1, n3), f1); (g3, (n, n1, n4), f2); (g4, (n, n2, n4), f2)]).
Proof. exact @cut_main. Qed.
Print Assumptions C36_cut_edge_partial.

(** C36.  Nothing changes with other edges. *)
Theorem C36_other_edges : forall {F : FloatOps} h edge p,
  length (e_faces h edge) <> 2 -> cut_edge edge p h = (Ok false, h).
Proof. exact @cut_edge_no. Qed.
Print Assumptions C36_other_edges.

Example C36_example : consistent wheel /\ no_double_faces wheel /\ In 8 (g_edges wheel) /\ e_faces wheel 8 = [3; 4] /\
  e_nodes wheel 8 = [0; 5] /\ new_point wheel (-10, -20, 2)%Z /\ f_zone wheel 3 = f_zone wheel 4.
Proof.
  split; [exact wheel_ok|]. split; [exact wheel_single|]. split; [mem|]. split; [vm_compute; reflexivity|].
  split; [vm_compute; reflexivity|]. split; [apply new_pointb_ok; vm_compute; reflexivity|]. vm_compute. reflexivity.
Qed.

(** C36 is false for an edge between two zones: a new face [g] that has a corner [x] of
    [f2] which [f1] does not have gets the zone of [f1], and the lists of the zones
    no longer match their faces. *)
Theorem C36_two_zones_refuted : exists (F : FloatOps) h edge f1 f2 p, consistent h /\ no_double_faces h /\
  In edge (g_edges h) /\ e_faces h edge = [f1; f2] /\ f_zone h f1 <> f_zone h f2 /\ new_point h p /\
  exists h' g x, cut_edge edge p h = (Ok true, h') /\ ~ zone_lists_ok h' /\
    In g (g_faces h') /\ ~ In g (g_faces h) /\ In x (f_nodes h' g) /\ In x (f_nodes h f2) /\ ~ In x (f_nodes h f1) /\
    f_zone h' g = f_zone h f1.
Proof. exact cut_cross_zone. Qed.
Print Assumptions C36_two_zones_refuted.

(** C36 is false for two faces with the same corners: afterwards two edges join the same
    nodes. *)
Theorem C36_double_face_refuted : exists (F : FloatOps) h edge p, consistent h /\ In edge (g_edges h) /\ new_point h p /\
  one_zone h edge /\ length (e_faces h edge) = 2 /\
  exists h' e1 e2, cut_edge edge p h = (Ok true, h') /\ In e1 (g_edges h') /\ In e2 (g_edges h') /\ e1 <> e2 /\
    e_nodes h' e1 = e_nodes h' e2.
Proof. exact cut_double. Qed.
Print Assumptions C36_double_face_refuted.

(** C37.  Flip of the longest edge of a face; the other face of this edge is in the same
    zone and the other diagonal does not exist yet (see the counterexample below).  Both
    new faces have the data of the given face. *)
Theorem C37_collapse_face_partial : forall {F : FloatOps}, order_ok -> forall h face,
  consistent h -> no_double_faces h -> In face (g_faces h) ->
  exists edge, longest h face edge /\
    (length (e_faces h edge) <> 2 -> collapse_face face h = (Ok false, h)) /\
    (forall other, other <> face -> In other (e_faces h edge) -> f_zone h other = f_zone h face ->
     free_diagonal h edge ->
     exists h' n1 n2 n3 n4 e g1 g2, e_nodes h edge = [n1; n2] /\
       Permutation (f_nodes h face) [n1; n2; n3] /\ Permutation (f_nodes h other) [n1; n2; n4] /\
       collapse_face face h = (Ok true, h') /\ consistent h' /\ counts h h' 0 0 0 /\
       patched h h' (mkPatch [face; other] [edge] [] [(e, (n3, n4))]
         [(g1, (n1, n3, n4), face); (g2, (n2, n3, n4), face)])).
Proof. exact @flip_main. Qed.
Print Assumptions C37_collapse_face_partial.

Example C37_example : consistent wheel /\ no_double_faces wheel /\ @order_ok ZOps /\ In 0 (g_faces wheel) /\
  e_faces wheel 2 = [0; 1] /\ f_zone wheel 1 = f_zone wheel 0 /\ free_diagonal wheel 2 /\
  let h' := snd (collapse_face (F := ZOps) 0 wheel) in
  map (f_nodes h') (g_faces h') = [[0; 3; 4]; [0; 4; 5]; [0; 5; 6]; [0; 6; 1]; [0; 1; 3]; [2; 1; 3]] /\
  In [1; 3] (map (e_nodes h') (g_edges h')) /\ ~ In [0; 2] (map (e_nodes h') (g_edges h')).
Proof.
  split; [exact wheel_ok|]. split; [exact wheel_single|]. split; [exact Zorder_ok|]. split; [mem|].
  split; [vm_compute; reflexivity|]. split; [vm_compute; reflexivity|].
  split; [apply free_diagonalb_ok; vm_compute; reflexivity|]. vm_compute.
  split; [reflexivity|]. split; [tauto|]. intuition discriminate.
Qed.

(** C37 is false if the other diagonal exists already. *)
Theorem C37_diagonal_refuted : exists (F : FloatOps) h face,
  @order_ok F /\ consistent h /\ no_double_faces h /\ In face (g_faces h) /\
  exists h' e1 e2, collapse_face face h = (Ok true, h') /\ In e1 (g_edges h') /\ In e2 (g_edges h') /\ e1 <> e2 /\
    e_nodes h' e1 = e_nodes h' e2.
Proof. exact flip_double. Qed.
Print Assumptions C37_diagonal_refuted.

(** C38.  Nothing changes with edges that are not inner ones. *)
Theorem C38_other_edges : forall {F : FloatOps} h edge,
  length (e_faces h edge) <> 2 -> collapse_edge edge h = (Ok false, h).
Proof. exact @collapse_edge_no. Qed.
Print Assumptions C38_other_edges.

Example C38_example : length (e_faces wheel 1) <> 2 /\ collapse_edge (F := ZOps) 1 wheel = (Ok false, wheel).
Proof. split; [vm_compute; discriminate|]. apply C38_other_edges. vm_compute. discriminate. Qed.

(** C38 is false: a face keeps a number that is not less than the number of faces. *)
Theorem C38_numbers_refuted : exists (F : FloatOps) h edge,
  consistent h /\ no_double_faces h /\ In edge (g_edges h) /\ length (e_faces h edge) = 2 /\
  exists h' f, collapse_edge edge h = (Ok true, h') /\ In f (g_faces h') /\
    (f_glo h' f >= Z.of_nat (length (g_faces h')))%Z.
Proof. exact collapse_numbers. Qed.
Print Assumptions C38_numbers_refuted.

(** C38 is false: an exception. *)
Theorem C38_exception_refuted : exists (F : FloatOps) h edge,
  consistent h /\ no_double_faces h /\ In edge (g_edges h) /\ length (e_faces h edge) = 2 /\
  fst (collapse_edge edge h) = Raise EIndexError.
Proof. exact collapse_raises. Qed.
Print Assumptions C38_exception_refuted.

(** C39.  Division of a border edge by two new points. *)
Theorem C39_border : forall {F : FloatOps} h edge face p1 p2 n1 n2,
  consistent h -> In edge (g_edges h) -> e_faces h edge = [face] -> e_nodes h edge = [n1; n2] ->
  new_point h p1 -> new_point h p2 -> rnd p1 <> rnd p2 ->
  exists h' n3 n4 n5 e1 e2 e3 e4 e5 f1 f2 f3, In n3 (f_nodes h face) /\ n3 <> n1 /\ n3 <> n2 /\
    cut_edge_with_two_nodes edge p1 p2 h = (Ok true, h') /\ consistent h' /\ counts h h' 2 4 2 /\
    patched h h' (mkPatch [face] [edge] [(n4, p1); (n5, p2)]
      [(e1, (n1, n4)); (e2, (n2, n5)); (e3, (n4, n5)); (e4, (n3, n4)); (e5, (n3, n5))]
      [(f1, (n1, n3, n4), face); (f2, (n3, n4, n5), face); (f3, (n2, n3, n5), face)]).
Proof. exact @border_two_main. Qed.
Print Assumptions C39_border.

(** C39.  Division of an inner edge by two new points; one zone, no two faces with the
    same corners. *)
Theorem C39_inner_partial : forall {F : FloatOps} h edge f1 f2 p1 p2 n1 n2,
  consistent h -> no_double_faces h -> In edge (g_edges h) -> e_faces h edge = [f1; f2] ->
  e_nodes h edge = [n1; n2] -> new_point h p1 -> new_point h p2 -> rnd p1 <> rnd p2 ->
  f_zone h f1 = f_zone h f2 ->
  exists h' n3 n6 n4 n5 e1 e2 e3 e4 e5 e6 e7 g1 g2 g3 g4 g5 g6,
    In n3 (f_nodes h f1) /\ n3 <> n1 /\ n3 <> n2 /\ In n6 (f_nodes h f2) /\ n6 <> n1 /\ n6 <> n2 /\ n3 <> n6 /\
    cut_edge_with_two_nodes edge p1 p2 h = (Ok true, h') /\ consistent h' /\ counts h h' 2 6 4 /\
    patched h h' (mkPatch [f1; f2] [edge] [(n4, p1); (n5, p2)]
      [(e1, (n1, n4)); (e2, (n2, n5)); (e3, (n4, n5)); (e4, (n3, n4)); (e5, (n3, n5)); (e6, (n4, n6)); (e7, (n5, n6))]
      [(g1, (n1, n3, n4), f1); (g2, (n3, n4, n5), f1); (g3, (n2, n3, n5), f1);
       (g4, (n1, n4, n6), f2); (g5, (n4, n5, n6), f2); (g6, (n2, n5, n6), f2)]).
Proof. exact @inner_two_main. Qed.
Print Assumptions C39_inner_partial.

Example C39_example : consistent wheel /\ no_double_faces wheel /\ In 3 (g_edges wheel) /\ e_faces wheel 3 = [1] /\
  e_nodes wheel 3 = [2; 3] /\ In 8 (g_edges wheel) /\ e_faces wheel 8 = [3; 4] /\ e_nodes wheel 8 = [0; 5] /\
  new_point wheel (7, 41, 1)%Z /\ new_point wheel (-7, 41, 1)%Z /\ f_zone wheel 3 = f_zone wheel 4.
Proof.
  split; [exact wheel_ok|]. split; [exact wheel_single|]. split; [mem|]. split; [vm_compute; reflexivity|].
  split; [vm_compute; reflexivity|]. split; [mem|]. split; [vm_compute; reflexivity|]. split; [vm_compute; reflexivity|].
  split; [apply new_pointb_ok; vm_compute; reflexivity|]. split; [apply new_pointb_ok; vm_compute; reflexivity|].
  vm_compute. reflexivity.
Qed.

(** C39 is false for an edge between two zones. *)
Theorem C39_two_zones_refuted : exists (F : FloatOps) h edge f1 f2 p q, consistent h /\ no_double_faces h /\
  In edge (g_edges h) /\ e_faces h edge = [f1; f2] /\ f_zone h f1 <> f_zone h f2 /\ new_point h p /\ new_point h q /\
  rnd p <> rnd q /\
  exists h' g x, cut_edge_with_two_nodes edge p q h = (Ok true, h') /\ ~ zone_lists_ok h' /\
    In g (g_faces h') /\ ~ In g (g_faces h) /\ In x (f_nodes h' g) /\ In x (f_nodes h f2) /\ ~ In x (f_nodes h f1) /\
    f_zone h' g = f_zone h f1.
Proof. exact two_cross_zone. Qed.
Print Assumptions C39_two_zones_refuted.

(** C40.  The marks after the call are those before and the nodes of border edges; the
    counter grows by the number of nodes newly marked; nothing else changes. *)
Theorem C40_mark : forall {F : FloatOps} h, exists h' b l, mark_all_fixed_nodes h = (Ok tt, h') /\
  h' = set_g_nborder (set_n_border h b) (g_nborder h + length l) /\
  (forall n, b n = true <-> n_border h n = true \/ on_border h n) /\
  NoDup l /\ (forall n, In n l <-> n_border h n = false /\ on_border h n).
Proof. exact @mark_all_ok. Qed.
Print Assumptions C40_mark.

Theorem C40_again : forall {F : FloatOps} h h',
  mark_all_fixed_nodes h = (Ok tt, h') -> mark_all_fixed_nodes h' = (Ok tt, h').
Proof. exact @mark_all_again. Qed.
Print Assumptions C40_again.

(** C40.  The counter is the number of marked nodes if the counter starts with zero. *)
Theorem C40_number_partial : forall {F : FloatOps} h h', topo_ok h ->
  (forall n, In n (g_nodes h) -> n_border h n = false) -> g_nborder h = 0 ->
  mark_all_fixed_nodes h = (Ok tt, h') -> g_nborder h' = length (filter (n_border h') (g_nodes h')).
Proof. exact @mark_all_number. Qed.
Print Assumptions C40_number_partial.

Example C40_example : consistent wheel /\ g_nborder wheel = 0 /\ forallb (fun n => negb (n_border wheel n)) (g_nodes wheel) = true /\
  let h' := snd (mark_all_fixed_nodes wheel) in
  g_nborder h' = 6 /\ filter (n_border h') (g_nodes h') = [1; 2; 3; 4; 5; 6].
Proof. split; [exact wheel_ok|]. vm_compute. auto. Qed.

(** C40 is false after the grid object has been loaded twice. *)
Theorem C40_number_refuted : exists (F : FloatOps) text h0 h1 h2 h3,
  load true text empty_heap = (Ok tt, h0) /\ mark_all_fixed_nodes h0 = (Ok tt, h1) /\
  load true text h1 = (Ok tt, h2) /\ mark_all_fixed_nodes h2 = (Ok tt, h3) /\
  consistent h3 /\ g_nborder h3 <> length (filter (n_border h3) (g_nodes h3)).
Proof. exact mark_after_load. Qed.
Print Assumptions C40_number_refuted.

(** C60.  Sequences of transformations of a loaded grid. *)
Theorem C60_sequences : forall {F : FloatOps} text h h' evs l, load true text h = (Ok tt, h') ->
  file_form [] (file_lines text) evs -> no_degenerate (zones_of evs) -> no_double_faces h' -> all_allowed h' l ->
  exists h'', perform_all l h' = (Ok tt, h'') /\ consistent h'' /\ no_double_faces h''.
Proof. exact @sequence_main. Qed.
Print Assumptions C60_sequences.

(** C60.  The same for any consistent grid. *)
Theorem C60_sequences_any : forall {F : FloatOps} l h, consistent h -> no_double_faces h -> all_allowed h l ->
  exists h', perform_all l h = (Ok tt, h') /\ consistent h' /\ no_double_faces h'.
Proof. exact @acts_ok. Qed.
Print Assumptions C60_sequences_any.

Example C60_example : consistent wheel /\ no_double_faces wheel /\
  all_allowed (F := ZOps) wheel
    [AMark; ASingle 1 (31, 22, 0)%Z; ADecompLinear 2 None; ADivide 7 (22, 10, 1)%Z; ADecompMono None; ACut 0 (21, 1, 2)%Z;
     AFlip 3; ATwo 5 (-32, 22, 0)%Z (-30, 20, 0)%Z; ADecompFarhat 3 None []; AMark].
Proof.
  split; [exact wheel_ok|]. split; [exact wheel_single|]. apply all_allowedb_ok. vm_compute. reflexivity.
Qed.

Example C60_load_example : load true two_zones empty_heap = (Ok tt, plate) /\
  file_form [] (file_lines two_zones) [ETitle (lit "plate"); EZone zoneA; EZone zoneB] /\ no_degenerate [zoneA; zoneB] /\ no_double_faces plate /\
  all_allowed plate [ADivide 1 (1, 2, 3)%Z; ADecompRandom (fun i => i * i + 1) 3 None; AMark].
Proof.
  split; [exact plate_run|]. split; [exact two_zones_form|]. split; [exact two_zones_nd|].
  split; [apply no_doubleb_ok; vm_compute; reflexivity|]. apply all_allowedb_ok. vm_compute. reflexivity.
Qed.
