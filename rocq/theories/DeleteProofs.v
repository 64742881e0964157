(** Proofs about the deletion of faces and edges. *)

From Coq Require Import ZArith Bool Lia List.
From Verif Require Import Py PyLemmas Heap HeapLemmas GridModel GridSpec Atomic AtomicSpec PatchProofs PatchRun PatchDel DeleteSpec.
Import ListNotations.
Open Scope list_scope.
Open Scope nat_scope.

Lemma keep_without : forall x l, keep [x] l = without x l.
Proof. intros x l. unfold keep, without. apply filter_ext. intros y. cbn. rewrite orb_false_r. reflexivity. Qed.

Lemma keep_none : forall l, keep [] l = l.
Proof. intros l. apply keep_id. intros y _ []. Qed.

Lemma without_out : forall x l, ~ In x l -> without x l = l.
Proof. intros x l H. rewrite <- keep_without. apply keep_id. intros y Hy [<-|[]]. auto. Qed.

Section Delete.
  Context {F : FloatOps}.

  Theorem del_face_done : forall h f, sound h -> In f (g_faces h) -> exists h', del_face f h = (Ok tt, h') /\ face_gone h h' f /\ rest_same h h'.
  Proof.
    intros h f C Hf. destruct C as (T & ZO & _).
    destruct (del_face_inv h T ZO acc0 h f (inv_start h T) eq_refl eq_refl eq_refl eq_refl Hf (fun K => K) (fun e _ => iff_refl False)) as (h' & E & I).
    exists h'. split; [exact E|]. cbn [acc0 aD aDE aRM aNE aEF aNF aPts aFD aEn aAF aAE aZF aZE aZN app] in I.
    destruct (fixed_fields _ _ (i_fixed _ _ _ I)) as (_ & Zn & _ & _ & Gn & Gz & _).
    assert (Fa : forall k, In k (g_faces h) -> k < next_f h) by (intros k; apply (t_face_alloc h T)). assert (Ea : forall k, In k (g_edges h) -> k < next_e h) by (intros k; apply (t_edge_alloc h T)).
    assert (Na : forall k, In k (g_nodes h) -> k < next_n h) by (intros k; apply (t_node_alloc h T)).
    split.
    - split; [rewrite (i_g_faces _ _ _ I); cbn; rewrite app_nil_r; apply keep_without|]. split; [rewrite (i_g_edges _ _ _ I); cbn; rewrite app_nil_r; apply keep_none|].
      split; [|split; [|split]].
      + intros n Hn. rewrite (i_n_faces _ _ _ I), (i_n_edges _ _ _ I) by exact Hn. cbn. rewrite !app_nil_r, keep_without, keep_none. auto.
      + intros e He. rewrite (i_e_faces _ _ _ I e He) by (intros []). cbn. rewrite app_nil_r. apply keep_without.
      + intros k Hk. destruct (i_f_old _ _ _ I k (Fa k Hk)) as (_ & _ & _ & _ & X). rewrite X. apply keep_none.
      + intros z Hz. rewrite (i_z_faces _ _ _ I), (i_z_edges _ _ _ I) by exact Hz. cbn. rewrite !app_nil_r, keep_without, keep_none. auto.
    - split; [rewrite (i_g_nodes _ _ _ I); cbn; apply app_nil_r|]. split; [exact Gz|]. split; [exact Gn|]. split; [exact Zn|]. split; [|split; [|split]].
      + intros n Hn. destruct (i_n_old _ _ _ I n (Na n Hn)) as (A & B & _). auto.
      + intros e He. apply (i_e_nodes _ _ _ I e (Ea e He)).
      + intros k Hk. destruct (i_f_old _ _ _ I k (Fa k Hk)) as (A & B & D & G & _). auto.
      + intros z Hz. rewrite (i_z_nodes _ _ _ I z Hz). apply app_nil_r.
  Qed.

  Theorem del_edge_done : forall h e, sound h -> In e (g_edges h) -> exists h', del_edge e h = (Ok tt, h') /\ edge_gone h h' e /\ rest_same h h'.
  Proof.
    intros h e C He. pose proof (proj1 C) as T. pose proof (proj1 (proj2 (proj2 C))) as ZL.
    assert (En : exists x y, e_nodes h e = [x; y]).
    { destruct (t_edge_nodes h T e He) as (L & _ & _). destruct (e_nodes h e) as [|x [|y [|w l]]]; cbn in L; try lia. exists x, y. reflexivity. }
    destruct En as (x & y & En).
    destruct (del_edge_inv h T ZL acc0 h e x y (inv_start h T) eq_refl eq_refl eq_refl eq_refl He (fun K => K) (fun f K => K) En) as (h' & E & Ef & I).
    exists h'. split; [exact E|]. cbn [acc0 aD aDE aRM aNE aEF aNF aPts aFD aEn aAF aAE aZF aZE aZN app] in I.
    destruct (fixed_fields _ _ (i_fixed _ _ _ I)) as (_ & Zn & _ & _ & Gn & Gz & _).
    assert (Fa : forall k, In k (g_faces h) -> k < next_f h) by (intros k; apply (t_face_alloc h T)). assert (Ea : forall k, In k (g_edges h) -> k < next_e h) by (intros k; apply (t_edge_alloc h T)).
    assert (Na : forall k, In k (g_nodes h) -> k < next_n h) by (intros k; apply (t_node_alloc h T)).
    split.
    - split; [rewrite (i_g_edges _ _ _ I); cbn; rewrite app_nil_r; apply keep_without|]. split; [rewrite (i_g_faces _ _ _ I); cbn; rewrite app_nil_r; apply keep_none|].
      split; [|split; [|split]].
      + intros n Hn. rewrite (i_n_faces _ _ _ I), (i_n_edges _ _ _ I) by exact Hn. cbn. rewrite !app_nil_r, keep_without, keep_none. auto.
      + intros k Hk. rewrite Ef. reflexivity.
      + intros k Hk. destruct (i_f_old _ _ _ I k (Fa k Hk)) as (_ & _ & _ & _ & X). rewrite X. rewrite keep_none. cbn [aRM].
        destruct (in_dec Nat.eq_dec k (e_faces h e)) as [J|J].
        * rewrite <- keep_without. unfold keep. apply filter_ext_in. intros u Hu. f_equal. apply eq_true_iff_eq. rewrite !existsb_exists. split; intros (w & Hw & W); apply Nat.eqb_eq in W; subst w.
          -- apply sel_In in Hw. apply in_map_iff in Hw. destruct Hw as (q & Q & _). injection Q as -> <-. exists e. rewrite Nat.eqb_refl. cbn. auto.
          -- destruct Hw as [<-|[]]. exists e. rewrite Nat.eqb_refl. split; [|reflexivity]. apply sel_In. apply in_map_iff. exists k. auto.
        * rewrite without_out by (intros K; apply J; apply (t_ef h T); auto). apply keep_id. intros u Hu K. apply sel_In in K. apply in_map_iff in K. destruct K as (q & Q & Hq). injection Q as -> <-. auto.
      + intros z Hz. rewrite (i_z_faces _ _ _ I), (i_z_edges _ _ _ I) by exact Hz. cbn. rewrite !app_nil_r, keep_without, keep_none. auto.
    - split; [rewrite (i_g_nodes _ _ _ I); cbn; apply app_nil_r|]. split; [exact Gz|]. split; [exact Gn|]. split; [exact Zn|]. split; [|split; [|split]].
      + intros n Hn. destruct (i_n_old _ _ _ I n (Na n Hn)) as (A & B & _). auto.
      + intros k Hk. apply (i_e_nodes _ _ _ I k (Ea k Hk)).
      + intros k Hk. destruct (i_f_old _ _ _ I k (Fa k Hk)) as (A & B & D & G & _). auto.
      + intros z Hz. rewrite (i_z_nodes _ _ _ I z Hz). apply app_nil_r.
  Qed.

  (** Steps that keep a part of the heap. *)
  Definition holds {A X} (get : heap -> X) (m : M A) : Prop := forall h, get (snd (m h)) = get h.

  Lemma holds_bind : forall A B X (get : heap -> X) (m : M A) (k : A -> M B), holds get m -> (forall a, holds get (k a)) -> holds get (bind m k).
  Proof. intros A B X get m k H K h. unfold bind. specialize (H h). destruct (m h) as [[a|e] h1]; cbn [snd] in *; [rewrite K; exact H|exact H]. Qed.
  Lemma holds_each : forall A X (get : heap -> X) (l : list A) b, (forall a, holds get (b a)) -> holds get (for_each l b).
  Proof. intros A X get l b H. induction l as [|a l IH]; [intros h; reflexivity|]. cbn [for_each]. apply holds_bind; auto. Qed.
  Lemma holds_gets : forall A X (get : heap -> X) (g : heap -> A), holds get (gets g).
  Proof. intros A X get g h. reflexivity. Qed.
  Lemma holds_lift : forall A X (get : heap -> X) (r : res A), holds get (lift r).
  Proof. intros A X get r h. destruct r; reflexivity. Qed.
  Lemma holds_rf : forall X (get : heap -> X) g put eqb, (forall l, holds get (put l)) -> holds get (remove_from g put eqb).
  Proof. intros X get g put eqb H. unfold remove_from. apply holds_bind; [apply holds_gets|]. intros l. destruct (remove1 eqb l); [apply H|intros h; reflexivity]. Qed.
  Lemma holds_ri : forall X (get : heap -> X) g put eqb, (forall l, holds get (put l)) -> holds get (remove_if g put eqb).
  Proof. intros X get g put eqb H. unfold remove_if. apply holds_bind; [apply holds_gets|]. intros l. destruct (mem eqb l); [apply holds_rf; exact H|intros h; reflexivity]. Qed.

  Lemma bind_ok : forall A B (m : M A) (k : A -> M B) h b h', bind m k h = (Ok b, h') -> exists a h1, m h = (Ok a, h1) /\ k a h1 = (Ok b, h').
  Proof. intros A B m k h b h' E. unfold bind in E. destruct (m h) as [[a|e] h1]; [|discriminate E]. eauto. Qed.

  Lemma rf_in : forall g put x h h', remove_from g put (Nat.eqb x) h = (Ok tt, h') -> In x (g h).
  Proof.
    intros g put x h h' E. unfold remove_from in E. rewrite bind_gets in E. destruct (remove1 (Nat.eqb x) (g h)) as [l|] eqn:R; [|discriminate E].
    destruct (in_dec Nat.eq_dec x (g h)) as [I|I]; [exact I|]. exfalso. assert (N : remove1 (Nat.eqb x) (g h) = None).
    { apply remove1_None. apply not_true_is_false. intros K. apply existsb_exists in K. destruct K as (y & Hy & K). apply Nat.eqb_eq in K. subst. auto. }
    congruence.
  Qed.

  Lemma holds_at : forall A X (get : heap -> X) (m : M A) h a h', holds get m -> m h = (Ok a, h') -> get h' = get h.
  Proof. intros A X get m h a h' H E. specialize (H h). rewrite E in H. exact H. Qed.

  Theorem del_face_refused : forall h f, ~ In f (g_faces h) -> fst (del_face f h) <> Ok tt.
  Proof.
    intros h f N E. destruct (del_face f h) as [r h'] eqn:R. cbn in E. subst r. unfold del_face in R. rewrite bind_gets in R.
    apply bind_ok in R. destruct R as (u1 & h1 & R1 & R). rewrite bind_gets in R. apply bind_ok in R. destruct R as (u2 & h2 & R2 & R).
    apply bind_ok in R. destruct R as (z & h3 & R3 & R). apply bind_ok in R. destruct R as (u4 & h4 & R4 & R). apply rf_in in R. apply N.
    assert (E1 : g_faces h1 = g_faces h) by (eapply (holds_at _ _ g_faces); [|exact R1]; apply holds_each; intros n; apply holds_ri; intros l k; reflexivity).
    assert (E2 : g_faces h2 = g_faces h1) by (eapply (holds_at _ _ g_faces); [|exact R2]; apply holds_each; intros n; apply holds_ri; intros l k; reflexivity).
    assert (E3 : g_faces h3 = g_faces h2) by (eapply (holds_at _ _ g_faces); [|exact R3]; intros k; unfold zone_of; destruct (f_zone k f); reflexivity).
    assert (E4 : g_faces h4 = g_faces h3) by (eapply (holds_at _ _ g_faces); [|exact R4]; apply holds_bind; [apply holds_gets|]; intros fs; destruct (remove1 (Nat.eqb f) fs); intros k; reflexivity).
    rewrite <- E1, <- E2, <- E3, <- E4. exact R.
  Qed.

  Theorem del_edge_refused : forall h e, ~ In e (g_edges h) -> fst (del_edge e h) <> Ok tt.
  Proof.
    intros h e N E. destruct (del_edge e h) as [r h'] eqn:R. cbn in E. subst r. unfold del_edge in R. rewrite bind_gets in R.
    apply bind_ok in R. destruct R as (a & h1 & R1 & R). apply bind_ok in R. destruct R as (u2 & h2 & R2 & R). apply bind_ok in R. destruct R as (b & h3 & R3 & R).
    apply bind_ok in R. destruct R as (u4 & h4 & R4 & R). rewrite bind_gets in R. apply bind_ok in R. destruct R as (u5 & h5 & R5 & R). rewrite bind_gets in R.
    apply bind_ok in R. destruct R as (u6 & h6 & R6 & R). apply rf_in in R. apply N.
    assert (E1 : g_edges h1 = g_edges h) by (eapply (holds_at _ _ g_edges); [|exact R1]; apply holds_lift).
    assert (E2 : g_edges h2 = g_edges h1) by (eapply (holds_at _ _ g_edges); [|exact R2]; apply holds_rf; intros l k; reflexivity).
    assert (E3 : g_edges h3 = g_edges h2) by (eapply (holds_at _ _ g_edges); [|exact R3]; apply holds_lift).
    assert (E4 : g_edges h4 = g_edges h3) by (eapply (holds_at _ _ g_edges); [|exact R4]; apply holds_rf; intros l k; reflexivity).
    assert (E5 : g_edges h5 = g_edges h4) by (eapply (holds_at _ _ g_edges); [|exact R5]; apply holds_each; intros n; apply holds_rf; intros l k; reflexivity).
    assert (E6 : g_edges h6 = g_edges h5) by (eapply (holds_at _ _ g_edges); [|exact R6]; apply holds_each; intros n; apply holds_ri; intros l k; reflexivity).
    rewrite <- E1, <- E2, <- E3, <- E4, <- E5, <- E6. exact R.
  Qed.

  (** An edge that its first end does not know: nothing is changed. *)
  Theorem del_edge_unlinked : forall h e x r, e_nodes h e = x :: r -> ~ In e (n_edges h x) -> del_edge e h = (Raise EValueError, h).
  Proof.
    intros h e x r En N. unfold del_edge. rewrite bind_gets, En, bind_item0. unfold bind at 1. unfold remove_from. rewrite bind_gets.
    assert (R : remove1 (Nat.eqb e) (n_edges h x) = None).
    { apply remove1_None. apply not_true_is_false. intros K. apply existsb_exists in K. destruct K as (y & Hy & K). apply Nat.eqb_eq in K. subst. auto. }
    rewrite R. reflexivity.
  Qed.

  Theorem face_twice : forall h f h', sound h -> In f (g_faces h) -> del_face f h = (Ok tt, h') -> fst (del_face f h') <> Ok tt.
  Proof.
    intros h f h' C Hf E. destruct (del_face_done h f C Hf) as (k & E' & (G & _) & _). rewrite E in E'. injection E' as <-. apply del_face_refused. rewrite G. unfold without.
    intros K. apply filter_In in K. rewrite Nat.eqb_refl in K. destruct K as [_ K]. discriminate K.
  Qed.

  Theorem edge_twice : forall h e h', sound h -> In e (g_edges h) -> del_edge e h = (Ok tt, h') -> del_edge e h' = (Raise EValueError, h').
  Proof.
    intros h e h' C He E. destruct (del_edge_done h e C He) as (k & E' & (_ & _ & Gn & _) & (_ & _ & _ & _ & _ & Ge & _)). rewrite E in E'. injection E' as <-. pose proof (proj1 C) as T.
    destruct (t_edge_nodes h T e He) as (L & _ & Ni). destruct (e_nodes h e) as [|x r] eqn:En; [discriminate L|]. destruct (Ge e He) as [G1 _].
    apply (del_edge_unlinked h' e x r); [rewrite G1; exact En|]. destruct (Gn x) as [-> _]; [apply Ni; left; reflexivity|]. unfold without.
    intros K. apply filter_In in K. rewrite Nat.eqb_refl in K. destruct K as [_ K]. discriminate K.
  Qed.

  (** A node without edges and faces. *)
  Theorem del_node_lone : forall h n, n_edges h n = [] -> n_faces h n = [] -> del_node n h = (Raise EIndexError, h).
  Proof. intros h n E G. unfold del_node. rewrite bind_gets, E. cbn [for_each]. unfold bind at 1. cbn. rewrite G. cbn. rewrite G. reflexivity. Qed.
End Delete.
