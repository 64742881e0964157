(** The sample grid of one zone. *)

From Coq Require Import ZArith NArith Ascii String Bool Lia List.
From Verif Require Import Py PyLemmas Heap GridModel GridSpec Samples SamplesAtomic Zam Info.
Import ListNotations.
Open Scope list_scope.
Open Scope nat_scope.

Lemma order_of : forall (g : nat -> Z) l, map g l = map Z.of_nat (seq 0 (length l)) -> forall i x, nth_error l i = Some x -> g x = Z.of_nat i.
Proof.
  intros g l E i x H. assert (K : nth_error (map g l) i = Some (g x)) by (rewrite nth_error_map, H; reflexivity).
  assert (L : i < length l) by (apply nth_error_Some; congruence).
  rewrite E, nth_error_map in K. rewrite (nth_error_nth' (seq 0 (length l)) 0) in K by (rewrite seq_length; exact L).
  rewrite seq_nth in K by exact L. cbn in K. congruence.
Qed.

Lemma flat6_lists : zone_lists_ok flat6.
Proof. apply zone_listsb_ok. vm_compute. reflexivity. Qed.
Lemma flat6_order : numbered_in_order flat6.
Proof. split; [|split]; apply order_of; vm_compute; reflexivity. Qed.
Lemma flat6_used : forall n, In n (g_nodes flat6) -> n_faces flat6 n <> [].
Proof.
  intros n H. assert (K : forallb (fun n => negb (match n_faces flat6 n with [] => true | _ => false end)) (g_nodes flat6) = true) by (vm_compute; reflexivity).
  rewrite forallb_forall in K. specialize (K n H). intros E. rewrite E in K. discriminate K.
Qed.
Lemma flat6_one : exists z, g_zones flat6 = [z].
Proof. eexists. vm_compute. reflexivity. Qed.
Lemma flat6_faces : g_faces flat6 <> [].
Proof. vm_compute. discriminate. Qed.
Lemma strip6_lists : zone_lists_ok strip6.
Proof. apply zone_listsb_ok. vm_compute. reflexivity. Qed.
Lemma strip6_faces : g_faces strip6 <> [].
Proof. vm_compute. discriminate. Qed.
Lemma empty_ok : grid_ok (@empty_heap ZOps) /\ zone_lists_ok (@empty_heap ZOps) /\ g_faces (@empty_heap ZOps) = [].
Proof.
  split; [apply grid_okb_ok; vm_compute; reflexivity|]. split; [|reflexivity]. intros z H. destruct H.
Qed.
