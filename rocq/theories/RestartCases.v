(** The sample of a computation continued from a merged file. *)

From Coq Require Import ZArith Ascii String Bool Lia List.
From Verif Require Import Py Utils UtilsSpec Heap GridModel GridSpec DecompSpec GridIO FileSpec StoreSpec LoadProps Mpi Driver DriverSpec
  Samples SamplesIO SamplesStore SamplesDriver CycleSpec CycleCases SolverSpec Stamps StampsSpec StampsProofs StampsCases RestartSpec RestartProofs.
Import ListNotations.
Open Scope list_scope.
Open Scope nat_scope.

Lemma plate_loads : exists hl, @load ZOps true two_zones (new_grid empty_heap) = (Ok tt, hl).
Proof.
  assert (E : OptionsCases.is_ok (fst (@load ZOps true two_zones (new_grid empty_heap))) = true) by (vm_compute; reflexivity).
  exact (ex_intro _ _ (unit_pair (@load ZOps true two_zones (new_grid empty_heap)) E)).
Qed.

Lemma plate_continued : exists out, @continued ZOps (lit "wing") two_zones [tm2] (lit "wing_r_000000000020") out.
Proof.
  assert (T : forall t, In t [tm1; tm2] -> twelve_digits t) by (intros t [K|[K|[]]]; rewrite <- K; split; reflexivity).
  destruct plate_loads as (hl & El).
  assert (Nf : @faces_in ZOps (zones_of [ETitle (lit "plate"); EZone zoneA; EZone zoneB]) <> 0) by (intros K; discriminate K).
  assert (Lf : (Z.of_nat (length wing_files) <= 100000)%Z) by (rewrite (proj1 (proj2 wing_read)); clear; lia).
  destruct (@restart_next ZOps (lit "wing") two_zones [] (lit "wing") two_zones (continued_here _ _) (lit "wing") (lit "000000000000") [ETitle (lit "plate"); EZone zoneA; EZone zoneB]
    empty_heap hl Z_faithful Zorder_ok eq_refl two_zones_form two_zones_nd Nf El
    (lit "n2") [lit "B"] 1%Z empty_heap parted wing_files [tm1; tm2] wing_vars wing_tabs wing_dir empty_heap wing_run Lf T wing_solver) as (outs & h' & _ & H).
  destruct (H tm2 (or_intror (or_introl eq_refl))) as (out & _ & K). exists out. exact K.
Qed.
