(** Sample grids for the printed percentages. *)

From Coq Require Import ZArith Ascii String Bool List Lia.
From Flocq Require Import IEEE754.BinarySingleNaN.
From Verif Require Import Py Heap GridModel GridSpec Zam ZamSpec ZamProofs Samples Double DoubleSpec DoubleStats DoubleStatsSpec DoubleStatsProofs.
Import ListNotations.
Open Scope list_scope.

(** Three triangles in a row: zones 'a' (faces 0, 1) and 'b' (2). *)
Definition strip3 : @heap ZOps := build_heap (F := ZOps) (strip_pts 3) (strip_tris 3) [(lit "a", [0; 1]); (lit "b", [2])]%nat.

Lemma strip3_ok : grid_ok strip3.
Proof. apply grid_okb_ok; vm_compute; reflexivity. Qed.

Lemma sum_main : exists (h : @heap ZOps) a b i c mb mi mc tb ti tc, grid_ok h /\ zam_build h (g_edges h) (g_zones h) = Ok a /\
  edges_statistics_string a = Ok (edges_line b i c tb ti tc) /\ (two_places mb tb /\ two_places mi ti /\ two_places mc tc) /\ (mb + mi + mc <> 10000)%Z.
Proof.
  exists strip3. eexists. exists 5%nat, 1%nat, 1%nat, 7143%Z, 1429%Z, 1429%Z, (lit "71.43"), (lit "14.29"), (lit "14.29").
  split; [exact strip3_ok|]. split; [vm_compute; reflexivity|]. split; [vm_compute; reflexivity|]. split; [|discriminate].
  split; [exact (hundredths_two 7143 ltac:(lia))|]. split; exact (hundredths_two 1429 ltac:(lia)).
Qed.

Lemma strip6_line : exists a, zam_build strip6 (g_edges strip6) (g_zones strip6) = Ok a /\ NoDup (g_zones strip6) /\ edges_in_zones strip6 (g_edges strip6) (g_zones strip6) /\
  g_edges strip6 <> [] /\ (Z.of_nat (List.length (g_edges strip6)) <= 2 ^ 38)%Z /\
  edges_statistics_string a = Ok (lit "edges stats: 8 border (61.54%), 3 inner (23.08%), 2 cross (15.38%)").
Proof.
  eexists. split; [vm_compute; reflexivity|].
  destruct (grid_edges_in_zones strip6 strip6_ok) as [N E]. split; [exact N|]. split; [exact E|]. split; [vm_compute; discriminate|]. split; vm_compute; [discriminate|reflexivity].
Qed.
