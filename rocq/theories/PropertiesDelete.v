(** Properties of the deletion of faces and edges: C133.

    Model: Atomic.v.  Specification vocabulary: DeleteSpec.v, AtomicSpec.v, GridSpec.v. *)

From Coq Require Import ZArith Bool Lia List Permutation.
From Verif Require Import Py Heap GridModel GridSpec Atomic AtomicSpec PatchDone Samples SamplesAtomic DeleteSpec DeleteProofs.
Import ListNotations.
Open Scope list_scope.
Open Scope nat_scope.

(** C133.  Grid.del_face takes the face out of the lists of the grid, of its zone, of nodes and of
    edges; the order of the others stays, and nothing else changes. *)
Theorem C133_face : forall {F : FloatOps} h f, sound h -> In f (g_faces h) -> exists h', del_face f h = (Ok tt, h') /\ face_gone h h' f /\ rest_same h h'.
Proof. exact @del_face_done. Qed.
Print Assumptions C133_face.

(** C133.  Grid.del_edge does the same with an edge. *)
Theorem C133_edge : forall {F : FloatOps} h e, sound h -> In e (g_edges h) -> exists h', del_edge e h = (Ok tt, h') /\ edge_gone h h' e /\ rest_same h h'.
Proof. exact @del_edge_done. Qed.
Print Assumptions C133_edge.

Example C133_example : sound wheel /\ In 4 (g_faces wheel) /\ In 3 (g_edges wheel).
Proof. split; [exact (consistent_sound _ wheel_ok)|]. split; vm_compute; tauto. Qed.

(** C133.  What is not in the grid cannot be deleted, whatever the grid is ... *)
Theorem C133_refused : forall {F : FloatOps} h x, (~ In x (g_faces h) -> fst (del_face x h) <> Ok tt) /\ (~ In x (g_edges h) -> fst (del_edge x h) <> Ok tt).
Proof. intros F h x. exact (conj (del_face_refused h x) (del_edge_refused h x)). Qed.
Print Assumptions C133_refused.

(** ... so nothing is deleted twice; for an edge it is ValueError, and nothing is changed. *)
Theorem C133_twice : forall {F : FloatOps} h x h', sound h ->
  (In x (g_faces h) -> del_face x h = (Ok tt, h') -> fst (del_face x h') <> Ok tt) /\
  (In x (g_edges h) -> del_edge x h = (Ok tt, h') -> del_edge x h' = (Raise EValueError, h')).
Proof. intros F h x h' S. exact (conj (face_twice h x h' S) (edge_twice h x h' S)). Qed.
Print Assumptions C133_twice.

(** C133.  A node of the grid that has lost its edges and faces cannot be deleted by Grid.del_node:
    IndexError, and nothing is changed. *)
Theorem C133_lone_node : forall {F : FloatOps} h n, n_edges h n = [] -> n_faces h n = [] -> del_node n h = (Raise EIndexError, h).
Proof. exact @del_node_lone. Qed.
Print Assumptions C133_lone_node.

(** A grid all faces and edges of which have been deleted. *)
Example C133_lone_example : let h := snd (bind (for_each (g_faces wheel) del_face) (fun _ => for_each (g_edges wheel) del_edge) wheel) in
  In 3 (g_nodes h) /\ n_edges h 3 = [] /\ n_faces h 3 = [].
Proof. cbv zeta. split; [vm_compute; tauto|]. split; vm_compute; reflexivity. Qed.

(** C133.  The numbers of the other faces stay, so a grid is not numbered any more after a
    deletion alone. *)
Theorem C133_numbered_refuted : exists (F : FloatOps) h f h', consistent h /\ In f (g_faces h) /\ del_face f h = (Ok tt, h') /\ ~ numbered h'.
Proof.
  exists ZOps, wheel, 4. destruct (del_face_done wheel 4 (consistent_sound _ wheel_ok) (proj1 (proj2 C133_example))) as (h' & E & _). exists h'.
  split; [exact wheel_ok|]. split; [exact (proj1 (proj2 C133_example))|]. split; [exact E|].
  assert (K : map (f_glo (snd (del_face (F := ZOps) 4 wheel))) (g_faces (snd (del_face (F := ZOps) 4 wheel))) = [0; 1; 2; 3; 5]%Z) by (vm_compute; reflexivity).
  rewrite E in K. cbn [snd] in K. intros (_ & _ & P).
  assert (L : length (g_faces h') = 5) by (rewrite <- (map_length (f_glo h')), K; reflexivity). rewrite K, L in P.
  apply (Permutation_in 5%Z) in P; [|cbn; tauto]. cbn in P. repeat (destruct P as [P|P]; [discriminate P|]). destruct P.
Qed.
Print Assumptions C133_numbered_refuted.
