(** Proofs about arrays of zones. *)

From Coq Require Import ZArith NArith Ascii String Bool Lia List.
From Verif Require Import Py PyLemmas Heap HeapLemmas GridModel GridSpec Exchange Info InfoProofs Samples SamplesIO SamplesStore LoadMain LoadProps.
Import ListNotations.
Open Scope list_scope.
Open Scope nat_scope.

Section P.
  Context {F : FloatOps}.

  Lemma face_three : forall h f, topo_ok h -> In f (g_faces h) -> exists a b c, f_nodes h f = [a; b; c] /\ NoDup [a; b; c] /\ incl [a; b; c] (g_nodes h).
  Proof.
    intros h f T Hf. destruct (t_face_nodes h T f Hf) as (L & N & I). destruct (f_nodes h f) as [|a [|b [|c [|d r]]]]; try discriminate L.
    exists a, b, c. auto.
  Qed.

  Lemma glo_distinct : forall h a b, numbered_in_order h -> In a (g_nodes h) -> In b (g_nodes h) -> n_glo h a = n_glo h b -> a = b.
  Proof.
    intros h a b (N & _) Ha Hb E. apply In_nth_error in Ha as (i & Hi). apply In_nth_error in Hb as (j & Hj).
    rewrite (N i a Hi), (N j b Hj) in E. assert (i = j) by lia. subst j. congruence.
  Qed.

  Theorem connectivity_ok : forall h z, grid_ok h -> numbered_in_order h -> In z (g_zones h) ->
    exists rows, connectivity_list h z = Ok rows /\ Forall2 (fun f row => row = map (n_glo h) (f_nodes h f)) (z_faces h z) rows.
  Proof.
    intros h z (T & ZO) N Hz. exists (map (fun f => map (n_glo h) (f_nodes h f)) (z_faces h z)). split.
    - unfold connectivity_list. apply rmap_map. intros f Hf. apply (zo_faces h ZO z f Hz) in Hf as (Hf & _).
      destruct (face_three h f T Hf) as (a & b & c & E & Nd & I). unfold connectivity_row. rewrite E.
      change (py_get [a; b; c] 0) with (Ok a). change (py_get [a; b; c] 1) with (Ok b). change (py_get [a; b; c] 2) with (Ok c). cbn [rbind map].
      destruct (Z.eqb (n_glo h a) (n_glo h b)) eqn:K; [|reflexivity]. apply Z.eqb_eq in K.
      apply glo_distinct in K; [|exact N|apply I; cbn; auto|apply I; cbn; auto]. subst b. inversion Nd; subst. exfalso. apply H1. left. reflexivity.
    - induction (z_faces h z) as [|f l IH]; constructor; auto.
  Qed.

  Lemma sublist_full : forall A (p : A -> Prop) l l', sublist_of p l l' -> (forall x, In x l -> p x) -> l' = l.
  Proof.
    intros A p l l' H. induction H as [|y l l' Hy H IH|y l l' Hy H IH]; intros K; [reflexivity| |].
    - f_equal. apply IH. intros x Hx. apply K. right. exact Hx.
    - exfalso. apply Hy, K. left. reflexivity.
  Qed.

  Theorem index_ok : forall h z, grid_ok h -> zone_lists_ok h -> numbered_in_order h -> g_zones h = [z] -> (forall n, In n (g_nodes h) -> n_faces h n <> []) ->
    forall f n, In f (z_faces h z) -> In n (f_nodes h f) -> nth_error (coords_array h z) (Z.to_nat (n_glo h n)) = Some (n_p h n).
  Proof.
    intros h z (T & ZO) L N Ez Un f n Hf Hn.
    assert (Hz : In z (g_zones h)) by (rewrite Ez; left; reflexivity).
    assert (En : z_nodes h z = g_nodes h).
    { destruct (L z Hz) as (LN & _). apply (sublist_full _ _ _ _ LN). intros x Hx. destruct (t_node_faces h T x Hx) as (_ & I).
      specialize (Un x Hx). destruct (n_faces h x) as [|g r]; [congruence|]. specialize (I g (or_introl eq_refl)).
      destruct (zo_cover h ZO g I) as (y & Hy & E). rewrite Ez in Hy. destruct Hy as [<-|[]]. exists g. split; [left; reflexivity|exact E]. }
    apply (zo_faces h ZO z f Hz) in Hf as (Hf & _). destruct (t_face_nodes h T f Hf) as (_ & _ & I). specialize (I n Hn).
    apply In_nth_error in I as (i & Hi). destruct N as (N & _). rewrite (N i n Hi), Nat2Z.id. unfold coords_array. rewrite En, nth_error_map, Hi. reflexivity.
  Qed.

  Theorem variables_ok : forall h z, Forall2 (fun f row => fst row = f_glo h f /\ length (snd row) = 11 /\
      (forall i name, nth_error [lit "T"; lit "Hw"; lit "Hi"; lit "HTC"; lit "Beta"] i = Some name ->
         nth_error (snd row) i = Some (match dget str_dec (f_data h f) name with Some v => v | None => val0 end)) /\
      (forall i name, nth_error [lit "TauX"; lit "TauY"; lit "TauZ"] i = Some name ->
         nth_error (snd row) (7 + i) = Some (match dget str_dec (f_data h f) name with Some v => v | None => val0 end)) /\
      nth_error (snd row) 5 = Some val0 /\ nth_error (snd row) 6 = Some val0 /\ nth_error (snd row) 10 = Some val0) (z_faces h z) (variables_array h z).
  Proof.
    intros h z. unfold variables_array. induction (z_faces h z) as [|f l IH]; cbn [map]; constructor; [|exact IH].
    cbn [fst snd]. split; [reflexivity|]. split; [reflexivity|]. split; [|split; [|split; [reflexivity|split; reflexivity]]].
    - intros i name H. destruct i as [|[|[|[|[|i]]]]]; cbn [nth_error] in H; try (injection H as <-; reflexivity). destruct i; discriminate H.
    - intros i name H. destruct i as [|[|[|i]]]; cbn [nth_error] in H; try (injection H as <-; reflexivity). destruct i; discriminate H.
  Qed.

  Theorem variable_ok : forall h z name, Forall2 (fun f v => v = match dget str_dec (f_data h f) name with Some v => v | None => val0 end) (z_faces h z) (get_variable h z name).
  Proof. intros h z name. unfold get_variable. induction (z_faces h z) as [|f l IH]; cbn [map]; constructor; auto. Qed.
End P.

Lemma plate_in_order : numbered_in_order plate.
Proof.
  destruct (load_result _ _ _ _ _ plate_run two_zones_form) as [[] _]. assumption.
Qed.

Lemma plate_out : exists z f n, In z (g_zones plate) /\ In f (z_faces plate z) /\ In n (f_nodes plate f) /\
  nth_error (coords_array plate z) (Z.to_nat (n_glo plate n)) = None.
Proof.
  exists (nth 1 (g_zones plate) 0), (nth 0 (z_faces plate (nth 1 (g_zones plate) 0)) 0), 6.
  split; [apply nth_In; apply Nat.ltb_lt; vm_compute; reflexivity|]. split; [apply nth_In; apply Nat.ltb_lt; vm_compute; reflexivity|].
  split; [|vm_compute; reflexivity].
  replace (f_nodes plate (nth 0 (z_faces plate (nth 1 (g_zones plate) 0)) 0)) with [1; 2; 6] by (vm_compute; reflexivity). cbn. auto.
Qed.

(** One face with MImp2 = 5. *)
Definition wet : @heap ZOps := set_z_faces (set_f_data (@empty_heap ZOps) (fun _ => [(lit "MImp2", 5%Z)])) (fun _ => [0]).
Lemma wet_lost : dget str_dec (f_data wet 0) (lit "MImp2") = Some 5%Z /\ In 0 (z_faces wet 0) /\
  exists row, variables_array wet 0 = [row] /\ ~ In 5%Z (snd row).
Proof.
  split; [vm_compute; reflexivity|]. split; [left; reflexivity|]. eexists. split; [vm_compute; reflexivity|]. cbn. intuition discriminate.
Qed.
