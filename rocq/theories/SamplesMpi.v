(** The sample strip with zone contents linked, for examples about stored grids. *)

From Coq Require Import ZArith NArith Ascii String Bool Lia List Permutation.
From Verif Require Import Py Heap GridModel GridSpec AssignProofs DecompMain Samples.
Import ListNotations.
Open Scope list_scope.

(** The strip of six faces in three zones after post_decompose. *)
Definition linked6 : @heap ZOps := snd (post_decompose strip6).

Lemma linked_ok : forall {F : FloatOps} h, grid_ok h -> let h' := snd (post_decompose h) in
  post_decompose h = (Ok tt, h') /\ grid_ok h' /\ zone_lists_ok h' /\ zone_ids_ok h'.
Proof.
  intros F h [Ht Hz].
  destruct (post_ok h Ht Hz) as (h' & E & Hf & Hz' & Hl & Hi).
  destruct (link_any h Ht Hz) as (h2 & E2 & Hm & _).
  assert (h' = h2) by congruence. subst h2. rewrite E. cbn [snd].
  split; [reflexivity|]. split; [|auto]. split; [exact (topo_mesh _ _ Hm Ht)|auto].
Qed.

Lemma linked6_run : post_decompose strip6 = (Ok tt, linked6).
Proof. exact (proj1 (linked_ok strip6 strip6_ok)). Qed.

Lemma linked6_ok : grid_ok linked6 /\ zone_lists_ok linked6 /\ zone_ids_ok linked6.
Proof. exact (proj2 (linked_ok strip6 strip6_ok)). Qed.

Lemma linked6_numbered : numbered linked6.
Proof.
  unfold numbered.
  replace (map (n_glo linked6) (g_nodes linked6)) with (map Z.of_nat (seq 0 (length (g_nodes linked6))))
    by (vm_compute; reflexivity).
  replace (map (e_glo linked6) (g_edges linked6)) with (map Z.of_nat (seq 0 (length (g_edges linked6))))
    by (vm_compute; reflexivity).
  replace (map (f_glo linked6) (g_faces linked6)) with (map Z.of_nat (seq 0 (length (g_faces linked6))))
    by (vm_compute; reflexivity).
  split; [apply Permutation_refl|]. split; apply Permutation_refl.
Qed.
