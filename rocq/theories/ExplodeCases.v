(** Concrete files for the explosion of a grid. *)

From Coq Require Import ZArith Reals Ascii String Bool Lia Lra List.
From Verif Require Import Py PyLemmas Heap HeapLemmas GridModel GridSpec DecompSpec DecompMain GridIO FileSpec StoreSpec DriverSpec Samples SamplesIO SamplesStore LoadProps Geom Programs ProgramsCases Explode
  ExplodeSpec ExplodeProofs ExplodeCase.
From Verif Require ConvertSpec.
Import ListNotations.
Open Scope list_scope.
Open Scope nat_scope.

(** The plate read without merging nodes. *)
Definition torn : @heap ZOps := snd (load false two_zones empty_heap).
Lemma torn_run : load false two_zones empty_heap = (Ok tt, torn).
Proof.
  assert (E : fst (load false two_zones (@empty_heap ZOps)) = Ok tt) by (vm_compute; reflexivity).
  exact (ok_pair (load false two_zones empty_heap) E).
Qed.
Opaque torn.

Lemma plate_separate : forall zr : @zone_rec ZOps, In zr [zoneA; zoneB] -> NoDup (map rnd (zr_pts zr)).
Proof. intros zr [<-|[<-|[]]]; vm_compute; repeat (constructor; [cbn; intuition discriminate|]); constructor. Qed.

(** A second zone without faces. *)
Definition bare_text : str := text_of
  (["TITLE=""bare"""; "VARIABLES=""X"", ""Y"", ""Z"", ""T"", ""Hw"""]%string ++
   zone_head "A" "3" "1" ++ ["0 1 0"; "0 0 1"; "0 0 0"; "7"; "70"; "1 2 3"]%string ++
   zone_head "B" "1" "0" ++ ["5"; "5"; "5"; ""; ""]%string).
Definition bare_zone : @zone_rec ZOps := mkZone (lit "B") [lit "T"; lit "Hw"] [(5, 5, 5)]%Z [] [].
Lemma bare_form : @file_form ZOps [] (file_lines bare_text) [ETitle (lit "bare"); EZone zoneA1; EZone bare_zone].
Proof.
  vm_compute file_lines.
  apply ff_title; [split; [discriminate|]; split; [reflexivity|]; eexists; split; reflexivity|].
  vars_tac. zone_tac zoneA1. zone_tac bare_zone. apply ff_end.
Qed.
Definition bare : @heap ZOps := snd (load false bare_text empty_heap).
Lemma bare_run : load false bare_text (@empty_heap ZOps) = (Ok tt, bare).
Proof.
  assert (E : fst (load false bare_text (@empty_heap ZOps)) = Ok tt) by (vm_compute; reflexivity).
  exact (ok_pair (load false bare_text empty_heap) E).
Qed.
Opaque bare.

(** The plate decomposed by x. *)
Definition by_x : list (@heap ZOps -> nat -> Z) := firstn 1 (@axis_signs ZOps).
Definition whole : @heap ZOps := snd (load true two_zones (new_grid empty_heap)).
Lemma whole_run : load true two_zones (new_grid empty_heap) = (Ok tt, whole).
Proof.
  assert (E : fst (load true two_zones (@new_grid ZOps empty_heap)) = Ok tt) by (vm_compute; reflexivity).
  exact (ok_pair (load true two_zones (new_grid empty_heap)) E).
Qed.
Definition halves : @heap ZOps := snd (decompose_hierarchical by_x 2 (Some (lit "plate hierarchical")) [] whole).
Lemma halves_run : decompose_hierarchical by_x 2 (Some (lit "plate hierarchical")) [] whole = (Ok tt, halves).
Proof.
  assert (E : fst (decompose_hierarchical by_x 2 (Some (lit "plate hierarchical")) [] whole) = Ok tt) by (vm_compute; reflexivity).
  exact (ok_pair (decompose_hierarchical by_x 2 (Some (lit "plate hierarchical")) [] whole) E).
Qed.
Lemma halves_zones : map (z_name halves) (g_zones halves) = [lit "hl"; lit "hr"] /\ map (z_faces halves) (g_zones halves) = [[1]; [0; 2]].
Proof. vm_compute. auto. Qed.

Lemma by_x_mesh : Forall mesh_sign by_x.
Proof. constructor; [|constructor]. exact (Forall_inv (@axis_signs_mesh ZOps)). Qed.

(** Zone B of the plate moves. *)
Lemma plate_way : way zreal 2 [zoneA; zoneB] zoneB <> V3 0 0 0.
Proof.
  intros K. apply (f_equal vx) in K. unfold way, used_points, vector, ConvertSpec.mean, ConvertSpec.vsum, zreal in K. cbn in K. lra.
Qed.

Lemma moved_shape : forall {F : FloatOps} real near s p q, (forall x, real (near x) = x) ->
  vsub (vector real (moved real near s p)) (vector real (moved real near s q)) = vsub (vector real p) (vector real q).
Proof.
  intros F real near s [[a b] c] [[a' b'] c'] H. unfold vsub, vector, moved, vadd. cbn [vx vy vz vector]. rewrite !H. f_equal; ring.
Qed.
