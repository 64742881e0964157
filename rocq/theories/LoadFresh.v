(** Proofs for C06: load does not depend on what the grid object held before, but for
    the name and the number of border nodes, which it keeps. *)

From Coq Require Import ZArith NArith Ascii String Bool Lia List.
From Verif Require Import Py PyLemmas Heap HeapLemmas GridModel GridSpec GridIO FileSpec
  Frames LoadParse LoadPlace LoadEdges LoadMain.
Import ListNotations.
Open Scope list_scope.
Open Scope nat_scope.

Section Blind.
  Context {F : FloatOps}.

  Definition blind {A} (m : M A) : Prop := forall h1 h2, core h1 = core h2 ->
    fst (m h1) = fst (m h2) /\ core (snd (m h1)) = core (snd (m h2)).

  Lemma blind_bind : forall A B (m : M A) (k : A -> M B), blind m -> (forall a, blind (k a)) -> blind (bind m k).
  Proof.
    intros A B m k Hm Hk h1 h2 E. destruct (Hm h1 h2 E) as [E1 E2]. unfold bind.
    destruct (m h1) as [[a|e] h1'], (m h2) as [[b|e'] h2']; cbn in *; try discriminate.
    - injection E1 as ->. apply Hk; auto.
    - split; auto. congruence.
  Qed.
  Lemma blind_ret : forall A (a : A), blind (ret a).
  Proof. intros A a h1 h2 E. auto. Qed.
  Lemma blind_raise : forall A e, blind (raise e : M A).
  Proof. intros A e h1 h2 E. auto. Qed.
  Lemma blind_lift : forall A (r : res A), blind (lift r).
  Proof. intros A r h1 h2 E. auto. Qed.
  Lemma blind_gets : forall A (f : heap -> A), (forall h, f (core h) = f h) -> blind (gets f).
  Proof. intros A f H h1 h2 E. cbn. split; auto. rewrite <- (H h1), <- (H h2), E. auto. Qed.
  Lemma blind_pure : forall A (f : heap -> res A), (forall h, f (core h) = f h) -> blind (fun h => (f h, h)).
  Proof. intros A f H h1 h2 E. cbn. split; auto. rewrite <- (H h1), <- (H h2), E. auto. Qed.
  Lemma blind_modify : forall f, (forall h, core (f (core h)) = core (f h)) -> blind (modify f).
  Proof. intros f H h1 h2 E. cbn. split; auto. rewrite <- (H h1), <- (H h2), E. auto. Qed.
  Lemma blind_run : forall A (m : M A), (forall h, fst (m (core h)) = fst (m h)) ->
    (forall h, core (snd (m (core h))) = core (snd (m h))) -> blind m.
  Proof. intros A m H1 H2 h1 h2 E. rewrite <- (H1 h1), <- (H1 h2), <- (H2 h1), <- (H2 h2), E. auto. Qed.
  Lemma blind_for_each : forall A (l : list A) (b : A -> M unit), (forall x, blind (b x)) -> blind (for_each l b).
  Proof.
    intros A l b H. induction l as [|x l IH]; [apply blind_ret|]. cbn [for_each]. apply blind_bind; auto.
  Qed.
  Lemma blind_find_near : forall n, blind (find_near_node n).
  Proof.
    intros n. unfold find_near_node.
    intros h1 h2 E.
    change (mem (rc_eqb (n_rc h1 n)) (g_bag h1)) with (mem (rc_eqb (n_rc (core h1) n)) (g_bag (core h1))).
    change (find (fun m => is_near h1 m n) (g_nodes h1)) with (find (fun m => is_near (core h1) m n) (g_nodes (core h1))).
    rewrite E.
    change (mem (rc_eqb (n_rc (core h2) n)) (g_bag (core h2))) with (mem (rc_eqb (n_rc h2 n)) (g_bag h2)).
    change (find (fun m => is_near (core h2) m n) (g_nodes (core h2))) with (find (fun m => is_near h2 m n) (g_nodes h2)).
    destruct (mem _ _); [destruct (find _ _)|]; auto.
  Qed.
End Blind.

Ltac blind_step :=
  match goal with
  | |- blind (bind _ _) => apply blind_bind; [|intro]
  | |- blind (ret _) => apply blind_ret
  | |- blind (raise _) => apply blind_raise
  | |- blind (gets _) => apply blind_gets; intro; reflexivity
  | |- blind (lift _) => apply blind_lift
  | |- blind (modify _) => apply blind_modify; intro; reflexivity
  | |- blind (for_each _ _) => apply blind_for_each; intro
  | |- blind (find_near_node _) => apply blind_find_near
  | |- blind (new_node _) => apply blind_run; intro; reflexivity
  | |- blind new_edge => apply blind_run; intro; reflexivity
  | |- blind (new_face _) => apply blind_run; intro; reflexivity
  | |- blind (new_zone _) => apply blind_run; intro; reflexivity
  | |- blind (fun h => (_, h)) => apply blind_pure; intro; reflexivity
  | |- blind (match ?x with _ => _ end) => destruct x
  | |- blind (add_node _ _) => unfold add_node
  | |- blind (add_edge _ _) => unfold add_edge
  | |- blind (add_face _ _) => unfold add_face
  | |- blind (zone_add_node _ _) => unfold zone_add_node
  | |- blind (zone_add_edge _ _) => unfold zone_add_edge
  | |- blind (zone_add_face _ _) => unfold zone_add_face
  | |- blind (unlink_from_zone _) => unfold unlink_from_zone
  | |- blind (zone_remove_face _ _) => unfold zone_remove_face
  | |- blind (set_zone _ _) => unfold set_zone
  | |- blind (link_node_face _ _) => unfold link_node_face
  | |- blind (link_node_edge _ _) => unfold link_node_edge
  | |- blind (link_edge_face _ _) => unfold link_edge_face
  | |- blind (complex_link _ _ _) => unfold complex_link
  | |- blind (append_zone _) => unfold append_zone
  | |- blind (raise_if _) => unfold raise_if
  | |- blind (load_nodes _ _ _ _) => unfold load_nodes
  | |- blind (load_faces _ _ _ _) => unfold load_faces
  | |- blind (link_face_edges _) => unfold link_face_edges
  | |- blind reset_zones_ids => unfold reset_zones_ids
  | |- blind clear => unfold clear
  end.
Ltac blind_tac := repeat blind_step.

Section Fresh.
  Context {F : FloatOps}.

  Lemma blind_load_conn : forall z is ls, blind (load_conn z is ls).
  Proof.
    intros z is. induction is as [|i r IH]; intros ls; cbn [load_conn]; [apply blind_ret|].
    destruct (readline ls) as [line ls1]. blind_tac. apply IH.
  Qed.

  Lemma blind_load_zone : forall merge vars line ls, blind (load_zone merge vars line ls).
  Proof.
    intros. unfold load_zone. apply blind_bind; [blind_tac|intros name].
    apply blind_bind; [blind_tac|intros z]. apply blind_bind; [blind_tac|intros _].
    destruct (readline ls) as [l1 ls1]. destruct (readline ls1) as [l2 ls2]. destruct (readline ls2) as [l3 ls3].
    destruct (readline ls3) as [l4 ls4]. destruct (readline ls4) as [l5 ls5].
    blind_tac; apply blind_load_conn.
  Qed.

  Lemma blind_load_loop : forall fuel merge vars ls, blind (load_loop fuel merge vars ls).
  Proof.
    induction fuel as [|k IH]; intros merge vars ls; cbn [load_loop]; [apply blind_raise|].
    destruct ls as [|line ls1]; [apply blind_ret|].
    destruct (match line with c :: _ => Ascii.eqb c hash | [] => false end); [apply IH|].
    destruct (contains _ line); [blind_tac; apply IH|].
    destruct (contains _ line); [blind_tac; apply IH|].
    destruct (contains _ line); [|apply blind_raise].
    apply blind_bind; [apply blind_load_zone|intros ls2; apply IH].
  Qed.

  Lemma blind_zone_ids : forall zs i, blind (set_zones_ids_from i zs).
  Proof. induction zs as [|z zs IH]; intros i; cbn [set_zones_ids_from]; blind_tac. apply IH. Qed.

  Lemma blind_link : blind link_nodes_and_edges_to_zones.
  Proof.
    unfold link_nodes_and_edges_to_zones, set_zones_ids. blind_tac. apply blind_zone_ids.
  Qed.

  Lemma blind_load : forall merge text, blind (load merge text).
  Proof.
    intros. unfold load. apply blind_bind; [blind_tac|intros _].
    apply blind_bind; [apply blind_load_loop|intros _].
    blind_tac. apply blind_link.
  Qed.

  Lemma load_fresh : forall merge text h,
    fst (load merge text h) = fst (load merge text (new_grid h)) /\
    core (snd (load merge text h)) = core (snd (load merge text (new_grid h))).
  Proof.
    intros merge text h.
    assert (E : forall g, load merge text g = load merge text (snd (clear g))) by reflexivity.
    rewrite (E h), (E (new_grid h)). apply blind_load. reflexivity.
  Qed.

  Lemma keeps_zone_ids : forall C (g : heap -> C), (forall h x, g (set_z_id h x) = g h) ->
    forall zs i, keeps g (set_zones_ids_from i zs).
  Proof.
    intros C g H. induction zs as [|z zs IH]; intros i; cbn [set_zones_ids_from]; [apply keeps_ret|].
    apply keeps_bind; [apply keeps_modify; intro; apply H|intros _; apply IH].
  Qed.

  Lemma keeps_link : forall C (g : heap -> C), (forall h x, g (set_z_id h x) = g h) ->
    (forall h x, g (set_z_nodes h x) = g h) -> (forall h x, g (set_z_edges h x) = g h) ->
    keeps g link_nodes_and_edges_to_zones.
  Proof.
    intros C g H1 H2 H3. unfold link_nodes_and_edges_to_zones, set_zones_ids, reset_zones_ids, zone_add_node, zone_add_edge.
    repeat first [ apply keeps_zone_ids; assumption
                 | apply keeps_modify; intro; rewrite ?H1, ?H2, ?H3; reflexivity
                 | keeps_step ].
  Qed.

  Definition node_part (h : heap) := (g_nodes h, n_p h, n_rc h, n_glo h, g_bag h).

  Lemma finish_nodes : keeps node_part finish.
  Proof.
    unfold finish. apply keeps_bind; [apply keeps_gets|intros fs].
    apply keeps_bind; [|intros _; apply keeps_link; reflexivity].
    apply keeps_for_each. intros f _. unfold link_face_edges. keeps_tac.
  Qed.

  Lemma finish_faces : keeps (fun h => (g_faces h, g_zones h, z_faces h, z_name h, f_zone h, f_data h, f_nodes h, n_rc h, g_name h, g_nborder h)) finish.
  Proof.
    unfold finish. apply keeps_bind; [apply keeps_gets|intros fs].
    apply keeps_bind; [|intros _; apply keeps_link; reflexivity].
    apply keeps_for_each. intros f _. unfold link_face_edges. keeps_tac.
  Qed.
End Fresh.

(* ------------------------------------------------------------------ *)
(** * The loop of load never runs out of fuel *)

Section Fuel.
  Context {F : FloatOps}.

  Definition nofuel {A} (m : M A) : Prop := forall h, fst (m h) <> Raise EOutOfFuel.
  Definition rnofuel {A} (r : res A) : Prop := r <> Raise EOutOfFuel.

  Lemma nofuel_bind : forall A B (m : M A) (k : A -> M B), nofuel m -> (forall a, nofuel (k a)) -> nofuel (bind m k).
  Proof.
    intros A B m k Hm Hk h. unfold bind. specialize (Hm h). destruct (m h) as [[a|e] h1]; [apply Hk|].
    cbn in *. congruence.
  Qed.
  Lemma nofuel_ret : forall A (a : A), nofuel (ret a).
  Proof. intros A a h. discriminate. Qed.
  Lemma nofuel_raise : forall A e, e <> EOutOfFuel -> nofuel (raise e : M A).
  Proof. intros A e H h. cbn. congruence. Qed.
  Lemma nofuel_lift : forall A (r : res A), rnofuel r -> nofuel (lift r).
  Proof. intros A r H h. exact H. Qed.
  Lemma nofuel_gets : forall A (f : heap -> A), nofuel (gets f).
  Proof. intros A f h. discriminate. Qed.
  Lemma nofuel_pure : forall A (f : heap -> res A), (forall h, rnofuel (f h)) -> nofuel (fun h => (f h, h)).
  Proof. intros A f H h. apply H. Qed.
  Lemma nofuel_modify : forall f, nofuel (modify f).
  Proof. intros f h. discriminate. Qed.
  Lemma nofuel_for_each : forall A (l : list A) (b : A -> M unit), (forall x, nofuel (b x)) -> nofuel (for_each l b).
  Proof.
    intros A l b H. induction l as [|x l IH]; [apply nofuel_ret|]. cbn [for_each]. apply nofuel_bind; auto.
  Qed.
  Lemma nofuel_find_near : forall n, nofuel (find_near_node n).
  Proof.
    intros n h. unfold find_near_node. destruct (mem _ _); [destruct (find _ _)|]; discriminate.
  Qed.

  Lemma rnofuel_bind : forall A B (r : res A) (k : A -> res B), rnofuel r -> (forall a, rnofuel (k a)) ->
    rnofuel (rbind r k).
  Proof. intros A B r k Hr Hk. destruct r; cbn; [apply Hk|]. intros E. injection E as ->. apply Hr. auto. Qed.
  Lemma rnofuel_ok : forall A (a : A), rnofuel (Ok a).
  Proof. intros A a. discriminate. Qed.
  Lemma rnofuel_get : forall A (l : list A) i, rnofuel (py_get l i).
  Proof. intros A l i. unfold py_get. destruct (py_index _ _); [destruct (nth_error _ _)|]; discriminate. Qed.
  Lemma rnofuel_rmap : forall A B (f : A -> res B) l, (forall x, rnofuel (f x)) -> rnofuel (rmap f l).
  Proof.
    intros A B f l H. induction l as [|x l IH]; [discriminate|]. cbn [rmap].
    apply rnofuel_bind; auto. intros b. apply rnofuel_bind; auto. intros. apply rnofuel_ok.
  Qed.
  Lemma rnofuel_int : forall s, rnofuel (py_int s).
  Proof.
    intros s. unfold py_int. repeat match goal with |- rnofuel (match ?x with _ => _ end) => destruct x end;
      try discriminate.
  Qed.
  Lemma rnofuel_rows : forall k ls, rnofuel (read_rows k ls).
  Proof.
    induction k as [|k IH]; intros ls; [apply rnofuel_ok|]. cbn [read_rows].
    destruct (readline ls). apply rnofuel_bind.
    - unfold floats. apply rnofuel_rmap. intros x. destruct (prs x); discriminate.
    - intros v. apply rnofuel_bind; [apply IH|]. intros. apply rnofuel_ok.
  Qed.
End Fuel.

Ltac rnofuel_step :=
  match goal with
  | |- rnofuel (rbind _ _) => apply rnofuel_bind; [|intro]
  | |- rnofuel (Ok _) => apply rnofuel_ok
  | |- rnofuel (py_get _ _) => apply rnofuel_get
  | |- rnofuel (py_int _) => apply rnofuel_int
  | |- rnofuel (rmap _ _) => apply rnofuel_rmap; intro
  | |- rnofuel (read_rows _ _) => apply rnofuel_rows
  | |- rnofuel (title_of _) => unfold title_of
  | |- rnofuel (variables_of _) => unfold variables_of
  | |- rnofuel (zone_name_of _) => unfold zone_name_of
  | |- rnofuel (count_of _) => unfold count_of
  | |- rnofuel (after_eq _) => unfold after_eq
  | |- rnofuel (corner_nodes _ _) => unfold corner_nodes
  | |- rnofuel (zone_ids_of _ _) => unfold zone_ids_of
  | |- rnofuel (match ?x with _ => _ end) => destruct x
  | |- rnofuel (Raise _) => discriminate
  end.
Ltac nofuel_step :=
  match goal with
  | |- nofuel (bind _ _) => apply nofuel_bind; [|intro]
  | |- nofuel (ret _) => apply nofuel_ret
  | |- nofuel (raise _) => apply nofuel_raise; discriminate
  | |- nofuel (gets _) => apply nofuel_gets
  | |- nofuel (lift _) => apply nofuel_lift; repeat rnofuel_step
  | |- nofuel (modify _) => apply nofuel_modify
  | |- nofuel (for_each _ _) => apply nofuel_for_each; intro
  | |- nofuel (find_near_node _) => apply nofuel_find_near
  | |- nofuel (new_node _) => intro; discriminate
  | |- nofuel new_edge => intro; discriminate
  | |- nofuel (new_face _) => intro; discriminate
  | |- nofuel (new_zone _) => intro; discriminate
  | |- nofuel (fun h => (_, h)) => apply nofuel_pure; intro; repeat rnofuel_step
  | |- nofuel (match ?x with _ => _ end) => destruct x
  | |- nofuel (add_node _ _) => unfold add_node
  | |- nofuel (add_edge _ _) => unfold add_edge
  | |- nofuel (add_face _ _) => unfold add_face
  | |- nofuel (zone_add_node _ _) => unfold zone_add_node
  | |- nofuel (zone_add_edge _ _) => unfold zone_add_edge
  | |- nofuel (zone_add_face _ _) => unfold zone_add_face
  | |- nofuel (unlink_from_zone _) => unfold unlink_from_zone
  | |- nofuel (zone_remove_face _ _) => unfold zone_remove_face
  | |- nofuel (set_zone _ _) => unfold set_zone
  | |- nofuel (link_node_face _ _) => unfold link_node_face
  | |- nofuel (link_node_edge _ _) => unfold link_node_edge
  | |- nofuel (link_edge_face _ _) => unfold link_edge_face
  | |- nofuel (complex_link _ _ _) => unfold complex_link
  | |- nofuel (append_zone _) => unfold append_zone
  | |- nofuel (raise_if _) => unfold raise_if
  | |- nofuel (load_nodes _ _ _ _) => unfold load_nodes
  | |- nofuel (load_faces _ _ _ _) => unfold load_faces
  | |- nofuel (link_face_edges _) => unfold link_face_edges
  | |- nofuel reset_zones_ids => unfold reset_zones_ids
  | |- nofuel clear => unfold clear
  end.
Ltac nofuel_tac := repeat nofuel_step.

Section Fuel2.
  Context {F : FloatOps}.

  Lemma nofuel_load_conn : forall z is ls, nofuel (load_conn z is ls).
  Proof.
    intros z is. induction is as [|i r IH]; intros ls; cbn [load_conn]; [apply nofuel_ret|].
    destruct (readline ls) as [line ls1]. nofuel_tac. apply IH.
  Qed.

  Lemma nofuel_load_zone : forall merge vars line ls, nofuel (load_zone merge vars line ls).
  Proof.
    intros. unfold load_zone. apply nofuel_bind; [nofuel_tac|intros name].
    apply nofuel_bind; [nofuel_tac|intros z]. apply nofuel_bind; [nofuel_tac|intros _].
    destruct (readline ls) as [l1 ls1]. destruct (readline ls1) as [l2 ls2]. destruct (readline ls2) as [l3 ls3].
    destruct (readline ls3) as [l4 ls4]. destruct (readline ls4) as [l5 ls5].
    nofuel_tac; apply nofuel_load_conn.
  Qed.

  Lemma nofuel_loop : forall fuel merge vars ls, length ls < fuel -> nofuel (load_loop fuel merge vars ls).
  Proof.
    induction fuel as [|k IH]; intros merge vars ls L; [lia|]. cbn [load_loop].
    destruct ls as [|line ls1]; [apply nofuel_ret|]. cbn in L.
    destruct (match line with c :: _ => Ascii.eqb c hash | [] => false end); [apply IH; lia|].
    destruct (contains _ line); [nofuel_tac; apply IH; lia|].
    destruct (contains _ line); [nofuel_tac; apply IH; lia|].
    destruct (contains _ line); [|apply nofuel_raise; discriminate].
    intros h. unfold bind. pose proof (nofuel_load_zone merge vars line ls1 h) as N.
    destruct (load_zone merge vars line ls1 h) as [[ls2|e] h1] eqn:E.
    - apply IH. destruct (load_zone_inv _ _ _ _ _ _ _ E) as (zr & _ & B). apply zone_block_rest in B. lia.
    - cbn in *. congruence.
  Qed.

  Lemma nofuel_zone_ids : forall zs i, nofuel (set_zones_ids_from i zs).
  Proof. induction zs as [|z zs IH]; intros i; cbn [set_zones_ids_from]; nofuel_tac. apply IH. Qed.

  Lemma nofuel_load : forall merge text, nofuel (load merge text).
  Proof.
    intros. unfold load. apply nofuel_bind; [nofuel_tac|intros _].
    apply nofuel_bind; [apply nofuel_loop; lia|intros _].
    nofuel_tac. unfold link_nodes_and_edges_to_zones, set_zones_ids. nofuel_tac. apply nofuel_zone_ids.
  Qed.
End Fuel2.
