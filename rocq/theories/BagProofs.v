(** The bag of rounded coordinates holds every element once after a load. *)

From Coq Require Import ZArith NArith Ascii String Bool Lia List.
From Verif Require Import Py PyLemmas Heap HeapLemmas GridModel GridIO.
Import ListNotations.
Open Scope list_scope.
Open Scope nat_scope.

Section Bag.
  Context {F : FloatOps}.

  (** The call keeps the bag free of repetitions, whatever its result. *)
  Definition keeps {A} (m : M A) : Prop := forall h, NoDup (g_bag h) -> NoDup (g_bag (snd (m h))).

  Lemma keeps_bind : forall A B (m : M A) (k : A -> M B), keeps m -> (forall a, keeps (k a)) -> keeps (bind m k).
  Proof.
    intros A B m k Hm Hk h N. unfold bind. specialize (Hm h N). destruct (m h) as [[a|x] h'] eqn:E; cbn [snd] in *; [apply Hk; exact Hm|exact Hm].
  Qed.
  Lemma keeps_ret : forall A (a : A), keeps (ret a).
  Proof. intros A a h N. exact N. Qed.
  Lemma keeps_raise : forall A x, keeps (@raise _ A x).
  Proof. intros A x h N. exact N. Qed.
  Lemma keeps_gets : forall A (f : heap -> A), keeps (gets f).
  Proof. intros A f h N. exact N. Qed.
  Lemma keeps_lift : forall A (r : res A), keeps (lift r).
  Proof. intros A r h N. exact N. Qed.
  Lemma keeps_modify : forall f, (forall h, g_bag (f h) = g_bag h) -> keeps (modify f).
  Proof. intros f H h N. cbn [modify snd]. rewrite H. exact N. Qed.
  Lemma keeps_same : forall A (m : M A), (forall h, g_bag (snd (m h)) = g_bag h) -> keeps m.
  Proof. intros A m H h N. rewrite H. exact N. Qed.
  Lemma keeps_each : forall A (body : A -> M unit), (forall x, keeps (body x)) -> forall l, keeps (for_each l body).
  Proof. intros A body H l. induction l as [|x l IH]; [apply keeps_ret|]. cbn [for_each]. apply keeps_bind; [apply H|]. intros _. exact IH. Qed.

  Ltac keepw t := repeat first [t | apply keeps_bind; [|intros ?] | apply keeps_ret | apply keeps_raise | apply keeps_gets | apply keeps_lift
    | apply keeps_modify; intros ?; reflexivity | apply keeps_each; intros ? | match goal with |- keeps (match ?x with _ => _ end) => destruct x end ].
  Ltac keep := keepw fail.

  Lemma bag_add : forall (r : rc) l, NoDup l -> NoDup (if mem (rc_eqb r) l then l else l ++ [r]).
  Proof.
    intros r l N. destruct (mem (rc_eqb r) l) eqn:E; [exact N|]. apply (NoDup_Add (a := r) (l := l)).
    - pose proof (Add_app r l []) as K. rewrite app_nil_r in K. exact K.
    - split; [exact N|]. intros K. assert (T : mem (rc_eqb r) l = true); [|rewrite T in E; discriminate E].
      unfold mem. apply existsb_exists. exists r. split; [exact K|]. unfold rc_eqb. destruct (rc_dec r r) as [|n]; [reflexivity|]. exfalso. apply n. reflexivity.
  Qed.

  Lemma keeps_add_node : forall n merge, keeps (add_node n merge).
  Proof.
    intros n merge. unfold add_node. apply keeps_bind.
    - apply keeps_same. intros h. unfold find_near_node. destruct (mem _ _); [|reflexivity]. destruct (find _ _); reflexivity.
    - intros [m|].
      + destruct merge; [apply keeps_ret|]. keep. intros h N. cbn [modify snd g_bag set_g_bag]. apply bag_add. exact N.
      + keep. intros h N. cbn [modify snd g_bag set_g_bag]. apply bag_add. exact N.
  Qed.

  Lemma keeps_load_zone : forall merge vars line ls, keeps (load_zone merge vars line ls).
  Proof.
    intros merge. assert (C : forall z is ls, keeps (load_conn z is ls)).
    { intros z is. induction is as [|i is IH]; intros ls; [apply keeps_ret|]. cbn [load_conn]. destruct (readline ls) as [line ls1].
      unfold link_node_face. keep. apply IH. }
    assert (Ln : forall z c n, keeps (load_nodes z merge c n)).
    { intros z c n. unfold load_nodes, zone_add_node. apply keeps_each. intros i. do 3 (apply keeps_bind; [apply keeps_lift|intros ?]).
      apply keeps_bind; [apply keeps_same; intros h; reflexivity|intros k]. apply keeps_bind; [apply keeps_add_node|intros m]. keep. }
    assert (Lf : forall z vs d m, keeps (load_faces z vs d m)).
    { intros z vs d m. unfold load_faces, add_face, zone_add_face, unlink_from_zone, zone_remove_face, set_zone. keep; try (apply keeps_same; intros h; reflexivity). }
    intros vars line ls. unfold load_zone, append_zone, raise_if. keepw ltac:(first [apply C | apply Ln | apply Lf]); try (apply keeps_same; intros h; reflexivity).
  Qed.

  Lemma keeps_loop : forall merge fuel vars ls, keeps (load_loop fuel merge vars ls).
  Proof.
    intros merge fuel. induction fuel as [|k IH]; intros vars ls; [apply keeps_raise|]. cbn [load_loop].
    keepw ltac:(first [apply IH | apply keeps_load_zone]).
  Qed.

  Lemma keeps_edges : forall f, keeps (link_face_edges f).
  Proof.
    intros f. unfold link_face_edges, complex_link, add_edge, link_node_edge, link_edge_face. keep; try (apply keeps_same; intros h; reflexivity).
  Qed.

  Lemma keeps_ids : forall zs i, keeps (set_zones_ids_from i zs).
  Proof. intros zs. induction zs as [|z zs IH]; intros i; [apply keeps_ret|]. cbn [set_zones_ids_from]. keep. apply IH. Qed.

  Lemma keeps_link : keeps link_nodes_and_edges_to_zones.
  Proof.
    unfold link_nodes_and_edges_to_zones, set_zones_ids, zone_add_node, zone_add_edge, reset_zones_ids. keepw ltac:(apply keeps_ids); try (apply keeps_same; intros h; reflexivity).
  Qed.

  Theorem load_bag : forall merge text h r h', load merge text h = (r, h') -> NoDup (g_bag h').
  Proof.
    intros merge text h r h' E.
    assert (K : keeps ((let ls := file_lines text in load_loop (S (length ls)) merge [] ls) ;;;
      fs <- gets g_faces ;; for_each fs link_face_edges ;;; link_nodes_and_edges_to_zones)).
    { keepw ltac:(first [apply keeps_loop|apply keeps_edges|apply keeps_link]). }
    unfold load, clear in E. rewrite bind_modify in E. cbv beta in E. apply (f_equal snd) in E. cbn [snd] in E. rewrite <- E.
    apply K. constructor.
  Qed.
End Bag.
