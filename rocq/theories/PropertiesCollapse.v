(** C38 for inner edges: the contraction of an edge. *)

From Coq Require Import ZArith NArith Ascii String Bool List Permutation.
From Verif Require Import Py Heap GridModel GridSpec Atomic AtomicSpec AtomicActs AtomicSeq Samples SamplesAtomic CollapseSpec CollapseCases.
Import ListNotations.
Open Scope list_scope.

(** C38.  An inner edge whose ends can be made one node ([contractible]; the two refutations
    of C38 show what happens otherwise): the two faces, three edges and one node are gone,
    the remaining end is in the middle of the edge and is a corner of all faces that had one
    of the ends as a corner, everything else is as it was, and the grid is consistent except
    possibly for the numbers (see the next theorem). *)
Theorem C38_collapse_partial : forall {F : FloatOps} h edge f1 f2 n1 n2 n3 n4,
  consistent h -> no_double_faces h -> NoDup (g_bag h) -> In edge (g_edges h) ->
  e_faces h edge = [f1; f2] -> e_nodes h edge = [n1; n2] ->
  In n3 (f_nodes h f1) -> n3 <> n1 -> n3 <> n2 -> In n4 (f_nodes h f2) -> n4 <> n1 -> n4 <> n2 ->
  contractible h f1 f2 n1 n2 n3 n4 ->
  exists h' e1 e2, In e1 (g_edges h) /\ Permutation (e_nodes h e1) [n2; n3] /\
    In e2 (g_edges h) /\ Permutation (e_nodes h e2) [n2; n4] /\
    collapse_edge edge h = (Ok true, h') /\ contracted h h' edge e1 e2 f1 f2 n1 n2 /\
    topo_ok h' /\ zones_ok h' /\ zone_lists_ok h' /\ nodes_merged h' /\ no_double_faces h' /\
    counts h' h 1 3 2.
Proof. exact @collapse_shape. Qed.
Print Assumptions C38_collapse_partial.

(** C38.  Then the numbers are 0 .. n-1 again exactly if the remaining members at the ends of
    the lists of the grid have the greatest numbers. *)
Theorem C38_numbers_partial : forall {F : FloatOps} h edge f1 f2 n1 n2 n3 n4 h',
  consistent h -> no_double_faces h -> NoDup (g_bag h) -> In edge (g_edges h) ->
  e_faces h edge = [f1; f2] -> e_nodes h edge = [n1; n2] ->
  In n3 (f_nodes h f1) -> n3 <> n1 -> n3 <> n2 -> In n4 (f_nodes h f2) -> n4 <> n1 -> n4 <> n2 ->
  contractible h f1 f2 n1 n2 n3 n4 -> collapse_edge edge h = (Ok true, h') ->
  (consistent h' <-> greatest_last (n_glo h) (g_nodes h') 1 (length (g_nodes h)) /\
    greatest_last (e_glo h) (g_edges h') 3 (length (g_edges h)) /\
    greatest_last (f_glo h) (g_faces h') 2 (length (g_faces h))).
Proof. exact @collapse_numbers_iff. Qed.
Print Assumptions C38_numbers_partial.

(** The grid of six faces around a node, and the edge of this node and the node 2: all
    conditions hold, also the one for the numbers. *)
Example C38_collapse_example : consistent wheel2 /\ no_double_faces wheel2 /\ NoDup (g_bag wheel2) /\ In 1 (g_edges wheel2) /\
  e_faces wheel2 1 = [0; 1] /\ e_nodes wheel2 1 = [2; 0] /\ In 1 (f_nodes wheel2 0) /\ In 3 (f_nodes wheel2 1) /\
  contractible wheel2 0 1 2 0 1 3 /\ collapse_edge (F := ZOps) 1 wheel2 = (Ok true, w2) /\ consistent w2 /\
  map (f_nodes w2) [2; 3; 4; 5] = [[3; 4; 2]; [4; 5; 2]; [5; 6; 2]; [6; 1; 2]] /\ n_p w2 2 = (10, 20, 2)%Z.
Proof.
  destruct w_edge as (E1 & E2 & E3 & E4).
  assert (In 1 (f_nodes wheel2 0)) as A1 by (rewrite E3; left; reflexivity).
  assert (In 3 (f_nodes wheel2 1)) as A2 by (rewrite E4; right; left; reflexivity).
  pose proof w_in as A3.
  split; [exact wheel2_ok|]. split; [exact wheel2_single|]. split; [exact w_bag|]. split; [exact A3|].
  split; [exact E1|]. split; [exact E2|]. split; [exact A1|]. split; [exact A2|]. split; [exact w_contractible|].
  split; [exact w2_run|]. split; [|exact (proj2 (proj2 (proj2 w2_lists)))].
  apply (C38_numbers_partial wheel2 1 0 1 2 0 1 3 w2 wheel2_ok wheel2_single w_bag A3 E1 E2 A1);
    [discriminate|discriminate|exact A2|discriminate|discriminate|exact w_contractible|exact w2_run|exact w2_greatest].
Qed.

(** C60.  Sequences of calls (see PropertiesAtomic.v), here for a sequence with collapse_edge. *)
Theorem C60_with_collapse : forall {F : FloatOps} e l h, consistent h -> no_double_faces h -> all_allowed h (ACollapse e :: l) ->
  exists h1 b h2, collapse_edge e h = (Ok b, h1) /\ consistent h1 /\ no_double_faces h1 /\
    perform_all l h1 = (Ok tt, h2) /\ consistent h2 /\ no_double_faces h2.
Proof. exact @acts_collapse. Qed.
Print Assumptions C60_with_collapse.

Example C60_collapse_example : consistent wheel2 /\ no_double_faces wheel2 /\
  all_allowed (F := ZOps) wheel2 [ACollapse 1; AMark; ADivide 3 (-20, 7, 1)%Z; ADecompLinear 2 None].
Proof. split; [exact wheel2_ok|]. split; [exact wheel2_single|exact w_all]. Qed.
