(** Attributes that a computation leaves unchanged. *)

From Coq Require Import ZArith NArith Ascii String Bool Lia List.
From Verif Require Import Py PyLemmas Heap HeapLemmas GridModel.
Import ListNotations.
Open Scope list_scope.

Section Frames.
  Context {F : FloatOps}.

  (** [m] leaves [g] unchanged, whether or not it raises. *)
  Definition keeps {A B} (g : heap -> B) (m : M A) : Prop := forall h, g (snd (m h)) = g h.

  Lemma keeps_run : forall A B (g : heap -> B) (m : M A) h r h', keeps g m -> m h = (r, h') -> g h' = g h.
  Proof. intros A B g m h r h' H E. specialize (H h). rewrite E in H. auto. Qed.

  Lemma keeps_bind : forall A B C (g : heap -> C) (m : M A) (k : A -> M B),
    keeps g m -> (forall a, keeps g (k a)) -> keeps g (bind m k).
  Proof.
    intros A B C g m k H1 H2 h. unfold bind. specialize (H1 h).
    destruct (m h) as [[a|e] h']; cbn in *; [rewrite (H2 a h')|]; auto.
  Qed.

  Lemma keeps_ret : forall A C (g : heap -> C) (a : A), keeps g (ret a).
  Proof. intros A C g a h. auto. Qed.
  Lemma keeps_raise : forall A C (g : heap -> C) e, keeps g (raise e : M A).
  Proof. intros A C g e h. auto. Qed.
  Lemma keeps_gets : forall A C (g : heap -> C) (f : heap -> A), keeps g (gets f).
  Proof. intros A C g f h. auto. Qed.
  Lemma keeps_lift : forall A C (g : heap -> C) (r : res A), keeps g (lift r).
  Proof. intros A C g r h. auto. Qed.
  Lemma keeps_modify : forall C (g : heap -> C) f, (forall h, g (f h) = g h) -> keeps g (modify f).
  Proof. intros C g f H h. cbn. auto. Qed.
  Lemma keeps_pure : forall A C (g : heap -> C) (f : heap -> res A), keeps g (fun h => (f h, h)).
  Proof. intros A C g f h. auto. Qed.

  Lemma keeps_for_each : forall A C (g : heap -> C) (l : list A) (b : A -> M unit),
    (forall x, In x l -> keeps g (b x)) -> keeps g (for_each l b).
  Proof.
    induction l as [|x l IH]; intros b H; cbn [for_each]; [apply keeps_ret|].
    apply keeps_bind; [apply H; left; auto|]. intros _. apply IH. intros; apply H; right; auto.
  Qed.

  Lemma keeps_find_near : forall C (g : heap -> C) n, keeps g (find_near_node n).
  Proof.
    intros C g n h. unfold find_near_node.
    destruct (mem _ _); [destruct (find _ _)|]; auto.
  Qed.
End Frames.

(** Proves [keeps g m] by walking through [m]; assignments to other fields are
    discharged by computation. *)
Ltac keeps_step :=
  match goal with
  | |- keeps _ (bind _ _) => apply keeps_bind; [|intro]
  | |- keeps _ (ret _) => apply keeps_ret
  | |- keeps _ (raise _) => apply keeps_raise
  | |- keeps _ (gets _) => apply keeps_gets
  | |- keeps _ (lift _) => apply keeps_lift
  | |- keeps _ (modify _) => apply keeps_modify; intro; reflexivity
  | |- keeps _ (for_each _ _) => apply keeps_for_each; intros
  | |- keeps _ (find_near_node _) => apply keeps_find_near
  | |- keeps _ (new_node _) => intro; reflexivity
  | |- keeps _ new_edge => intro; reflexivity
  | |- keeps _ (new_face _) => intro; reflexivity
  | |- keeps _ (new_zone _) => intro; reflexivity
  | |- keeps _ (fun h => (_, h)) => apply keeps_pure
  | |- keeps _ (match ?x with _ => _ end) => destruct x
  | |- keeps _ (add_node _ _) => unfold add_node
  | |- keeps _ (add_edge _ _) => unfold add_edge
  | |- keeps _ (add_face _ _) => unfold add_face
  | |- keeps _ (zone_add_node _ _) => unfold zone_add_node
  | |- keeps _ (zone_add_edge _ _) => unfold zone_add_edge
  | |- keeps _ (zone_add_face _ _) => unfold zone_add_face
  | |- keeps _ (unlink_from_zone _) => unfold unlink_from_zone
  | |- keeps _ (zone_remove_face _ _) => unfold zone_remove_face
  | |- keeps _ (set_zone _ _) => unfold set_zone
  | |- keeps _ (link_node_face _ _) => unfold link_node_face
  | |- keeps _ (link_node_edge _ _) => unfold link_node_edge
  | |- keeps _ (link_edge_face _ _) => unfold link_edge_face
  | |- keeps _ (complex_link _ _ _) => unfold complex_link
  | |- keeps _ (append_zone _) => unfold append_zone
  end.
Ltac keeps_tac := repeat keeps_step.
