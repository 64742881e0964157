(** The state of the grid after all zones of a file are read, before the edges are
    made. *)

From Coq Require Import ZArith NArith Ascii String Bool Lia List.
From Verif Require Import Py PyLemmas Heap HeapLemmas Frames GridModel GridSpec FileSpec LoadParse.
Import ListNotations.
Open Scope list_scope.
Open Scope nat_scope.

(* ------------------------------------------------------------------ *)
(** * First occurrences *)

Section Firsts.
  Context {F : FloatOps}.

  Lemma firsts_from_app : forall a seen b,
    firsts_from seen (a ++ b) = firsts_from seen a ++ firsts_from (rev (map rnd a) ++ seen) b.
  Proof.
    induction a as [|p a IH]; intros seen b; [reflexivity|].
    cbn [app firsts_from map rev]. rewrite <- app_assoc. cbn [app].
    destruct (in_dec rc_dec (rnd p) seen) as [Hi|Hn].
    - rewrite IH. f_equal.
      assert (G : forall q s1 s2, (forall r, In r s1 <-> In r s2) -> firsts_from s1 q = firsts_from s2 q).
      { induction q as [|x q IHq]; intros s1 s2 Hs; [reflexivity|]. cbn [firsts_from].
        destruct (in_dec rc_dec (rnd x) s1), (in_dec rc_dec (rnd x) s2);
          try (exfalso; specialize (Hs (rnd x)); tauto); auto.
        f_equal. apply IHq. intros r. cbn. specialize (Hs r). tauto. }
      apply G. intros r. rewrite !in_app_iff. cbn. split; [tauto|].
      intros [H|[H|H]]; auto. subst. auto.
    - cbn [app]. f_equal. apply IH.
  Qed.

  Lemma firsts_snoc : forall ps p,
    firsts (ps ++ [p]) = if in_dec rc_dec (rnd p) (map rnd ps) then firsts ps else firsts ps ++ [p].
  Proof.
    intros ps p. unfold firsts. rewrite firsts_from_app, app_nil_r. cbn [firsts_from].
    destruct (in_dec rc_dec (rnd p) (rev (map rnd ps))) as [H|H];
      destruct (in_dec rc_dec (rnd p) (map rnd ps)) as [H1|H1]; rewrite <- in_rev in H; auto.
    - apply app_nil_r.
    - contradiction.
    - contradiction.
  Qed.

  Lemma firsts_rnd : forall ps r, In r (map rnd (firsts ps)) <-> In r (map rnd ps).
  Proof.
    intros ps. induction ps as [|p ps IH] using rev_ind; intros r; [reflexivity|].
    rewrite firsts_snoc, map_app, in_app_iff. cbn.
    destruct (in_dec rc_dec (rnd p) (map rnd ps)) as [H|H].
    - rewrite IH. split; [tauto|]. intros [E|[E|[]]]; auto. subst. auto.
    - rewrite map_app, in_app_iff, IH. cbn. tauto.
  Qed.

  Lemma firsts_nodup : forall ps, NoDup (map rnd (firsts ps)).
  Proof.
    intros ps. induction ps as [|p ps IH] using rev_ind; [constructor|].
    rewrite firsts_snoc. destruct (in_dec rc_dec (rnd p) (map rnd ps)) as [H|H]; auto.
    rewrite map_app. cbn. apply NoDup_rev in IH. rewrite <- (rev_involutive (map rnd (firsts ps) ++ [rnd p])).
    apply NoDup_rev. rewrite rev_app_distr. cbn. constructor; auto.
    rewrite <- in_rev, firsts_rnd. auto.
  Qed.

  (** Every point of the list is represented by the first point with the same rounded
      coordinates. *)
  Lemma firsts_in : forall ps q, In q (firsts ps) <->
    exists a b, ps = a ++ q :: b /\ ~ In (rnd q) (map rnd a).
  Proof.
    intros ps. induction ps as [|p ps IH] using rev_ind; intros q.
    - cbn. split; [tauto|]. intros (a & b & E & _). destruct a; discriminate.
    - rewrite firsts_snoc. split.
      + intros H. destruct (in_dec rc_dec (rnd p) (map rnd ps)) as [Hi|Hi].
        * apply IH in H as (a & b & -> & H). exists a, (b ++ [p]). rewrite <- app_assoc. auto.
        * apply in_app_iff in H as [H|[<-|[]]].
          -- apply IH in H as (a & b & -> & H). exists a, (b ++ [p]). rewrite <- app_assoc. auto.
          -- exists ps, []. auto.
      + intros (a & b & E & H). destruct (@exists_last _ (q :: b) ltac:(discriminate)) as (b' & x & Eb).
        rewrite Eb, app_assoc in E. apply app_inj_tail in E as [E1 E2]. subst x.
        destruct b' as [|y b'].
        * injection Eb as -> ->. rewrite app_nil_r in E1. subst a.
          destruct (in_dec rc_dec (rnd p) (map rnd ps)); [tauto|]. apply in_app_iff. right. left. auto.
        * injection Eb as -> Eb. assert (Hq : In y (firsts ps)) by (apply IH; eauto).
          destruct (in_dec rc_dec (rnd p) (map rnd ps)); [auto|]. apply in_app_iff. auto.
  Qed.
End Firsts.

(* ------------------------------------------------------------------ *)
(** * Operations *)

Section Ops.
  Context {F : FloatOps}.

  (** Everything but the nodes, the node list, the bag and the node lists of zones. *)
  Definition restN (h : heap) :=
    ((e_glo h, e_nodes h, e_faces h, next_e h, g_edges h),
     (f_glo h, f_data h, f_nodes h, f_edges h, f_zone h, f_mark h, next_f h, g_faces h),
     (z_id h, z_name h, z_edges h, z_faces h, z_fixed h, next_z h, g_zones h),
     (g_name h, g_nborder h)).

  (** Everything but the faces, the face list, the face lists of zones and nodes. *)
  Definition restF (h : heap) :=
    ((n_glo h, n_p h, n_rc h, n_edges h, n_border h, next_n h, g_nodes h, g_bag h),
     (e_glo h, e_nodes h, e_faces h, next_e h, g_edges h),
     (z_id h, z_name h, z_nodes h, z_edges h, z_fixed h, next_z h, g_zones h),
     (g_name h, g_nborder h)).

  Lemma new_node_run : forall p h, exists h1, new_node p h = (Ok (next_n h), h1) /\
    n_glo h1 = upd (n_glo h) (next_n h) (-1)%Z /\ n_p h1 = upd (n_p h) (next_n h) p /\
    n_rc h1 = upd (n_rc h) (next_n h) (rnd p) /\ n_edges h1 = upd (n_edges h) (next_n h) [] /\
    n_faces h1 = upd (n_faces h) (next_n h) [] /\ n_border h1 = upd (n_border h) (next_n h) false /\
    next_n h1 = S (next_n h) /\
    g_nodes h1 = g_nodes h /\ g_bag h1 = g_bag h /\ z_nodes h1 = z_nodes h /\ restN h1 = restN h.
  Proof. intros p h. eexists. split; [reflexivity|]. repeat split. Qed.

  (** Adding a node to the lists of the grid. *)
  Definition enter_node (n : nat) (h : heap) : heap :=
    let h := set_n_glo h (upd (n_glo h) n (Z.of_nat (length (g_nodes h)))) in
    let h := set_g_nodes h (g_nodes h ++ [n]) in
    set_g_bag h (if mem (rc_eqb (n_rc h n)) (g_bag h) then g_bag h else g_bag h ++ [n_rc h n]).

  Lemma enter_node_facts : forall n h h2, h2 = enter_node n h ->
    n_glo h2 = upd (n_glo h) n (Z.of_nat (length (g_nodes h))) /\
    g_nodes h2 = g_nodes h ++ [n] /\
    g_bag h2 = (if mem (rc_eqb (n_rc h n)) (g_bag h) then g_bag h else g_bag h ++ [n_rc h n]) /\
    n_p h2 = n_p h /\ n_rc h2 = n_rc h /\ n_edges h2 = n_edges h /\ n_faces h2 = n_faces h /\
    n_border h2 = n_border h /\ next_n h2 = next_n h /\ z_nodes h2 = z_nodes h /\ restN h2 = restN h.
  Proof. intros n h h2 ->. repeat split. Qed.

  Lemma add_node_new : forall n merge h,
    (mem (rc_eqb (n_rc h n)) (g_bag h) = false \/
     merge = false /\ exists m, find (fun m => is_near h m n) (g_nodes h) = Some m) ->
    add_node n merge h = (Ok n, enter_node n h).
  Proof.
    intros n merge h H. unfold add_node, find_near_node, bind at 1.
    destruct (mem (rc_eqb (n_rc h n)) (g_bag h)) eqn:Em.
    - destruct H as [H|[-> (m & ->)]]; [discriminate|]. reflexivity.
    - reflexivity.
  Qed.

  Lemma add_node_found : forall n h m,
    mem (rc_eqb (n_rc h n)) (g_bag h) = true ->
    find (fun m => is_near h m n) (g_nodes h) = Some m ->
    add_node n true h = (Ok m, h).
  Proof.
    intros n h m H E. unfold add_node, find_near_node, bind at 1. rewrite H, E. reflexivity.
  Qed.

  Lemma new_face_run : forall d h, exists h1, new_face d h = (Ok (next_f h), h1) /\
    f_glo h1 = upd (f_glo h) (next_f h) (-1)%Z /\ f_data h1 = upd (f_data h) (next_f h) d /\
    f_nodes h1 = upd (f_nodes h) (next_f h) [] /\ f_edges h1 = upd (f_edges h) (next_f h) [] /\
    f_zone h1 = upd (f_zone h) (next_f h) None /\ f_mark h1 = upd (f_mark h) (next_f h) None /\
    next_f h1 = S (next_f h) /\
    g_faces h1 = g_faces h /\ z_faces h1 = z_faces h /\ n_faces h1 = n_faces h /\ restF h1 = restF h.
  Proof. intros d h. eexists. split; [reflexivity|]. repeat split. Qed.

  Lemma add_face_run : forall f h, exists h1, add_face f None h = (Ok tt, h1) /\
    f_glo h1 = upd (f_glo h) f (Z.of_nat (length (g_faces h))) /\ g_faces h1 = g_faces h ++ [f] /\
    f_data h1 = f_data h /\ f_nodes h1 = f_nodes h /\ f_edges h1 = f_edges h /\ f_zone h1 = f_zone h /\
    f_mark h1 = f_mark h /\ next_f h1 = next_f h /\ z_faces h1 = z_faces h /\ n_faces h1 = n_faces h /\
    restF h1 = restF h.
  Proof. intros f h. eexists. split; [reflexivity|]. repeat split. Qed.

  Lemma zone_add_face_run : forall z f h, f_zone h f = None ->
    exists h1, zone_add_face z f h = (Ok tt, h1) /\
    f_zone h1 = upd (f_zone h) f (Some z) /\ z_faces h1 = upd (z_faces h) z (z_faces h z ++ [f]) /\
    f_glo h1 = f_glo h /\ g_faces h1 = g_faces h /\
    f_data h1 = f_data h /\ f_nodes h1 = f_nodes h /\ f_edges h1 = f_edges h /\
    f_mark h1 = f_mark h /\ next_f h1 = next_f h /\ n_faces h1 = n_faces h /\ restF h1 = restF h.
  Proof.
    intros z f h E. unfold zone_add_face. rewrite bind_gets, E, bind_ret.
    eexists. split; [reflexivity|]. repeat split.
  Qed.

  Lemma link_node_face_run : forall n f h, exists h1, link_node_face n f h = (Ok tt, h1) /\
    n_faces h1 = upd (n_faces h) n (n_faces h n ++ [f]) /\
    f_nodes h1 = upd (f_nodes h) f (f_nodes h f ++ [n]) /\
    f_glo h1 = f_glo h /\ g_faces h1 = g_faces h /\ f_data h1 = f_data h /\ f_edges h1 = f_edges h /\
    f_zone h1 = f_zone h /\ f_mark h1 = f_mark h /\ next_f h1 = next_f h /\ z_faces h1 = z_faces h /\
    restF h1 = restF h.
  Proof. intros n f h. eexists. split; [reflexivity|]. repeat split. Qed.

  Lemma new_zone_facts : forall name h, exists h1, (z <- new_zone name ;; append_zone z ;;; ret z) h = (Ok (next_z h), h1) /\
    z_id h1 = upd (z_id h) (next_z h) (-1)%Z /\ z_name h1 = upd (z_name h) (next_z h) name /\
    z_nodes h1 = upd (z_nodes h) (next_z h) [] /\ z_edges h1 = upd (z_edges h) (next_z h) [] /\
    z_faces h1 = upd (z_faces h) (next_z h) [] /\ z_fixed h1 = upd (z_fixed h) (next_z h) false /\
    next_z h1 = S (next_z h) /\ g_zones h1 = g_zones h ++ [next_z h] /\
    g_name h1 = g_name h /\ g_nborder h1 = g_nborder h /\
    (n_glo h1, n_p h1, n_rc h1, n_edges h1, n_faces h1, n_border h1, next_n h1, g_nodes h1, g_bag h1) =
    (n_glo h, n_p h, n_rc h, n_edges h, n_faces h, n_border h, next_n h, g_nodes h, g_bag h) /\
    (e_glo h1, e_nodes h1, e_faces h1, next_e h1, g_edges h1) =
    (e_glo h, e_nodes h, e_faces h, next_e h, g_edges h) /\
    (f_glo h1, f_data h1, f_nodes h1, f_edges h1, f_zone h1, f_mark h1, next_f h1, g_faces h1) =
    (f_glo h, f_data h, f_nodes h, f_edges h, f_zone h, f_mark h, next_f h, g_faces h).
  Proof. intros. eexists. split; [reflexivity|]. repeat split. Qed.
End Ops.

(* ------------------------------------------------------------------ *)
(** * Nodes *)

Lemma rc_eqb_eq : forall {F : FloatOps} (a b : rc), rc_eqb a b = true <-> a = b.
Proof. intros. unfold rc_eqb. destruct (rc_dec a b); split; congruence. Qed.

Lemma mem_rc : forall {F : FloatOps} (r : rc) l, mem (rc_eqb r) l = true <-> In r l.
Proof.
  intros F r l. unfold mem. rewrite existsb_exists. split.
  - intros (x & Hx & E). apply rc_eqb_eq in E. subst. auto.
  - intros H. exists r. split; auto. apply rc_eqb_eq; auto.
Qed.

Lemma NoDup_snoc : forall A (l : list A) x, NoDup l -> ~ In x l -> NoDup (l ++ [x]).
Proof.
  intros A l x H Hx. rewrite <- (rev_involutive (l ++ [x])). apply NoDup_rev.
  rewrite rev_app_distr. cbn. constructor; [rewrite <- in_rev; auto|]. apply NoDup_rev; auto.
Qed.

Lemma Forall2_imp : forall A B (R S : A -> B -> Prop) l l', (forall a b, R a b -> S a b) ->
  Forall2 R l l' -> Forall2 S l l'.
Proof. intros A B R S l l' H H1. induction H1; constructor; auto. Qed.

Lemma Forall2_app_one : forall A B (R : A -> B -> Prop) l l' x y, Forall2 R l l' -> R x y ->
  Forall2 R (l ++ [x]) (l' ++ [y]).
Proof. intros. apply Forall2_app; auto. Qed.

Section Nodes.
  Context {F : FloatOps}.

  Record nodes_read (merge : bool) (pts : list pt) (reps : list nat) (h : heap) : Prop := {
    nr_nd : NoDup (g_nodes h);
    nr_alloc : forall n, In n (g_nodes h) -> n < next_n h;
    nr_rc : forall n, In n (g_nodes h) -> n_rc h n = rnd (n_p h n);
    nr_glo : forall i n, nth_error (g_nodes h) i = Some n -> n_glo h n = Z.of_nat i;
    nr_bag : forall r, In r (g_bag h) <-> In r (map (n_rc h) (g_nodes h));
    nr_reps : Forall2 (fun p n => n_rc h n = rnd p /\ In n (g_nodes h)) pts reps;
    nr_list : map (n_p h) (g_nodes h) = if merge then firsts pts else pts;
    nr_merge : merge = true -> NoDup (map (n_rc h) (g_nodes h));
    nr_same : merge = false -> reps = g_nodes h;
    nr_edges : forall n, In n (g_nodes h) -> n_edges h n = []
  }.

  (** Node and face lists are mutually inverse, with multiplicity. *)
  Record incid (h : heap) : Prop := {
    in_nodes : forall f, In f (g_faces h) -> incl (f_nodes h f) (g_nodes h);
    in_faces : forall n, In n (g_nodes h) -> incl (n_faces h n) (g_faces h);
    in_count : forall n f, In n (g_nodes h) -> In f (g_faces h) ->
      count_occ Nat.eq_dec (n_faces h n) f = count_occ Nat.eq_dec (f_nodes h f) n
  }.

  Lemma map_ext_in' : forall A B (f g : A -> B) l, (forall x, In x l -> f x = g x) -> map f l = map g l.
  Proof. intros. apply map_ext_in. auto. Qed.

  Lemma build_node_ok : forall z merge p pts reps h,
    nodes_read merge pts reps h -> incid h ->
    (forall f, In f (g_faces h) -> f < next_f h) ->
    exists n h', build_node z merge p h = (Ok tt, h') /\
      nodes_read merge (pts ++ [p]) (reps ++ [n]) h' /\ incid h' /\
      z_nodes h' = upd (z_nodes h) z (z_nodes h z ++ [n]) /\
      n_rc h' n = rnd p /\ In n (g_nodes h') /\
      (forall m, In m (g_nodes h) -> In m (g_nodes h') /\ n_rc h' m = n_rc h m) /\
      next_n h <= next_n h' /\ restN h' = restN h.
  Proof.
    intros z merge p pts reps h Hr Hi Hfa.
    destruct (new_node_run p h) as (h1 & E1 & F1 & F2 & F3 & F4 & F5 & F6 & F7 & F8 & F9 & F10 & F11).
    remember (next_n h) as k eqn:Ek.
    assert (Hk : ~ In k (g_nodes h)).
    { intros H. apply (nr_alloc _ _ _ _ Hr) in H. lia. }
    assert (Hne : forall m, In m (g_nodes h) -> m <> k) by (intros m Hm ->; auto).
    assert (Erc : n_rc h1 k = rnd p) by (rewrite F3; apply upd_same).
    assert (Old : forall m, In m (g_nodes h) -> n_rc h1 m = n_rc h m).
    { intros m Hm. rewrite F3. apply upd_other; auto. }
    assert (Eg : g_faces h1 = g_faces h) by (unfold restN in F11; congruence).
    assert (Ef : f_nodes h1 = f_nodes h) by (unfold restN in F11; congruence).
    unfold build_node. rewrite (bind_run _ _ _ _ _ _ _ E1).
    destruct (mem (rc_eqb (n_rc h1 k)) (g_bag h1) && merge) eqn:Em.
    - (* the node is known *)
      apply andb_prop in Em as [Em ->].
      assert (Hin : In (rnd p) (map (n_rc h) (g_nodes h))).
      { apply (nr_bag _ _ _ _ Hr). rewrite Erc, F9 in Em. apply mem_rc; auto. }
      destruct (find (fun m => is_near h1 m k) (g_nodes h1)) as [m|] eqn:Ef1.
      2:{ exfalso. apply in_map_iff in Hin as (m & E & Hm).
          rewrite F8 in Ef1. pose proof (find_none _ _ Ef1 _ Hm) as Hn. cbn beta in Hn.
          unfold is_near in Hn. rewrite Erc, Old, E in Hn by auto.
          assert (rc_eqb (rnd p) (rnd p) = true) by (apply rc_eqb_eq; auto). congruence. }
      pose proof (find_some _ _ Ef1) as [Hm Hnear]. rewrite F8 in Hm.
      unfold is_near in Hnear. apply rc_eqb_eq in Hnear. rewrite Erc in Hnear.
      rewrite (bind_run _ _ _ _ _ _ _ (add_node_found _ _ _ Em Ef1)).
      exists m. eexists. split; [reflexivity|].
      assert (Hp : In (rnd p) (map rnd pts)).
      { rewrite <- firsts_rnd. pose proof (nr_list _ _ _ _ Hr) as El. cbn in El. rewrite <- El.
        rewrite map_map. rewrite <- (map_ext_in' _ _ (n_rc h) (fun x => rnd (n_p h x))); auto.
        intros x Hx. apply (nr_rc _ _ _ _ Hr); auto. }
      split; [|split; [|split; [|split; [|split; [|split; [|split]]]]]].
      + constructor; cbn [g_nodes n_rc n_p n_glo g_bag next_n n_edges set_z_nodes]; rewrite ?F8.
        * apply (nr_nd _ _ _ _ Hr).
        * intros n Hn. apply (nr_alloc _ _ _ _ Hr) in Hn. lia.
        * intros n Hn. rewrite Old, F2, upd_other by auto. apply (nr_rc _ _ _ _ Hr); auto.
        * intros i n Hn. rewrite F1, upd_other by (apply Hne; eapply nth_error_In; eauto).
          apply (nr_glo _ _ _ _ Hr); auto.
        * intros r. rewrite F9, (nr_bag _ _ _ _ Hr r). rewrite (map_ext_in' _ _ (n_rc h1) (n_rc h)); auto. tauto.
        * apply Forall2_app_one; [|split; auto].
          eapply Forall2_imp; [|apply (nr_reps _ _ _ _ Hr)]. cbn. intros a b [Ha Hb]. rewrite Old; auto.
        * rewrite firsts_snoc. destruct (in_dec rc_dec (rnd p) (map rnd pts)); [|tauto].
          rewrite F2. rewrite <- (nr_list _ _ _ _ Hr). apply map_ext_in. intros x Hx. apply upd_other; auto.
        * intros _. rewrite (map_ext_in' _ _ (n_rc h1) (n_rc h)); auto. apply (nr_merge _ _ _ _ Hr eq_refl).
        * discriminate.
        * intros n Hn. rewrite F4, upd_other by auto. apply (nr_edges _ _ _ _ Hr); auto.
      + constructor; cbn [g_nodes n_faces f_nodes g_faces set_z_nodes]; rewrite ?F8, ?Eg, ?Ef.
        * apply (in_nodes _ Hi).
        * intros n Hn. rewrite F5, upd_other by auto. apply (in_faces _ Hi); auto.
        * intros n f Hn Hf. rewrite F5, upd_other by auto. apply (in_count _ Hi); auto.
      + cbn [z_nodes set_z_nodes]. rewrite F10. auto.
      + cbn [n_rc set_z_nodes]. auto.
      + cbn [g_nodes set_z_nodes]. rewrite F8. auto.
      + cbn [g_nodes n_rc set_z_nodes]. intros x Hx. rewrite F8. auto.
      + cbn [next_n set_z_nodes]. lia.
      + exact F11.
    - (* a new node *)
      assert (Ea : add_node k merge h1 = (Ok k, enter_node k h1)).
      { apply add_node_new. destruct (mem (rc_eqb (n_rc h1 k)) (g_bag h1)) eqn:Em1; [|auto].
        destruct merge; [discriminate|]. right. split; auto.
        destruct (find (fun m => is_near h1 m k) (g_nodes h1)) as [m|] eqn:Ef1; [eauto|exfalso].
        assert (Hin : In (rnd p) (map (n_rc h) (g_nodes h))).
        { apply (nr_bag _ _ _ _ Hr). rewrite Erc, F9 in Em1. apply mem_rc; auto. }
        apply in_map_iff in Hin as (m & E & Hm).
        rewrite F8 in Ef1. pose proof (find_none _ _ Ef1 _ Hm) as Hn. cbn beta in Hn.
        unfold is_near in Hn. rewrite Erc, Old, E in Hn by auto.
        assert (rc_eqb (rnd p) (rnd p) = true) by (apply rc_eqb_eq; auto). congruence. }
      rewrite (bind_run _ _ _ _ _ _ _ Ea).
      destruct (enter_node_facts k h1 _ eq_refl) as (G1 & G2 & G3 & G4 & G5 & G6 & G7 & G8 & G9 & G10 & G11).
      set (h2 := enter_node k h1) in *. clearbody h2. clear Ea.
      rewrite F8 in G1, G2. rewrite F9 in G3. rewrite F1 in G1. rewrite F2 in G4. rewrite F3 in G5.
      rewrite F4 in G6. rewrite F5 in G7. rewrite F7 in G9. rewrite F10 in G10. rewrite F11 in G11.
      exists k. eexists. split; [reflexivity|].
      assert (Eg2 : g_faces h2 = g_faces h) by (unfold restN in G11; congruence).
      assert (Ef2 : f_nodes h2 = f_nodes h) by (unfold restN in G11; congruence).
      assert (Hbag : forall r, In r (g_bag h2) <-> In r (g_bag h) \/ r = rnd p).
      { intros r. rewrite G3, Erc. destruct (mem (rc_eqb (rnd p)) (g_bag h)) eqn:Em1.
        - apply mem_rc in Em1. split; [auto|]. intros [H|H]; [auto|subst; auto].
        - rewrite in_app_iff. cbn. intuition. }
      assert (Hrcs : map (n_rc h2) (g_nodes h2) = map (n_rc h) (g_nodes h) ++ [rnd p]).
      { rewrite G2, map_app. cbn. rewrite G5, upd_same. f_equal. apply map_ext_in.
        intros x Hx. apply upd_other; auto. }
      split; [|split; [|split; [|split; [|split; [|split; [|split]]]]]].
      + constructor; cbn [g_nodes n_rc n_p n_glo g_bag next_n n_edges set_z_nodes].
        * rewrite G2. apply NoDup_snoc; auto. apply (nr_nd _ _ _ _ Hr).
        * intros n Hn. rewrite G2 in Hn. apply in_app_iff in Hn as [Hn|[<-|[]]]; [|lia].
          apply (nr_alloc _ _ _ _ Hr) in Hn. lia.
        * intros n Hn. rewrite G2 in Hn. rewrite G5, G4.
          apply in_app_iff in Hn as [Hn|[<-|[]]].
          -- rewrite !upd_other by auto. apply (nr_rc _ _ _ _ Hr); auto.
          -- rewrite !upd_same. auto.
        * intros i n Hn. rewrite G2 in Hn. rewrite G1.
          destruct (Nat.lt_ge_cases i (length (g_nodes h))).
          -- rewrite nth_error_app1 in Hn by auto.
             rewrite !upd_other by (apply Hne; eapply nth_error_In; eauto). apply (nr_glo _ _ _ _ Hr); auto.
          -- rewrite nth_error_app2 in Hn by auto. destruct (i - length (g_nodes h)) as [|j] eqn:Ej.
             ++ cbn in Hn. injection Hn as <-. rewrite upd_same. f_equal. lia.
             ++ destruct j; discriminate.
        * intros r. rewrite Hbag, Hrcs, in_app_iff, (nr_bag _ _ _ _ Hr r). cbn. intuition.
        * apply Forall2_app_one.
          -- eapply Forall2_imp; [|apply (nr_reps _ _ _ _ Hr)]. cbn. intros a b [Ha Hb].
             rewrite G5, upd_other by auto. rewrite G2, in_app_iff. auto.
          -- rewrite G5, upd_same, G2, in_app_iff. cbn. auto.
        * rewrite G2, G4, map_app. cbn [map]. rewrite upd_same.
          rewrite (map_ext_in' _ _ (upd (n_p h) k p) (n_p h)) by (intros x Hx; apply upd_other; auto).
          rewrite (nr_list _ _ _ _ Hr). destruct merge; [|auto]. rewrite firsts_snoc.
          destruct (in_dec rc_dec (rnd p) (map rnd pts)) as [Hin|]; auto. exfalso.
          rewrite andb_true_r in Em. assert (In (rnd p) (g_bag h)) as Hb; [|].
          { apply (nr_bag _ _ _ _ Hr). rewrite <- firsts_rnd in Hin.
            pose proof (nr_list _ _ _ _ Hr) as El. cbn in El. rewrite <- El, map_map in Hin.
            rewrite (map_ext_in' _ _ (n_rc h) (fun x => rnd (n_p h x))); auto.
            intros x Hx. apply (nr_rc _ _ _ _ Hr); auto. }
          apply mem_rc in Hb. rewrite <- F9, <- Erc in Hb. congruence.
        * intros ->. rewrite Hrcs. apply NoDup_snoc; [apply (nr_merge _ _ _ _ Hr eq_refl)|].
          rewrite <- (nr_bag _ _ _ _ Hr). intros Hb. apply mem_rc in Hb.
          rewrite andb_true_r in Em. rewrite Erc, F9 in Em. congruence.
        * intros Hm. rewrite (nr_same _ _ _ _ Hr Hm), G2. auto.
        * intros n Hn. rewrite G2 in Hn. rewrite G6. apply in_app_iff in Hn as [Hn|[<-|[]]].
          -- rewrite upd_other by auto. apply (nr_edges _ _ _ _ Hr); auto.
          -- apply upd_same.
      + constructor; cbn [g_nodes n_faces f_nodes g_faces set_z_nodes]; rewrite ?Eg2, ?Ef2.
        * intros f Hf n Hn. rewrite G2, in_app_iff. left. apply (in_nodes _ Hi f Hf); auto.
        * intros n Hn. rewrite G2 in Hn. rewrite G7. apply in_app_iff in Hn as [Hn|[<-|[]]].
          -- rewrite upd_other by auto. apply (in_faces _ Hi); auto.
          -- rewrite upd_same. intros x [].
        * intros n f Hn Hf. rewrite G2 in Hn. rewrite G7. apply in_app_iff in Hn as [Hn|[<-|[]]].
          -- rewrite upd_other by auto. apply (in_count _ Hi); auto.
          -- rewrite upd_same. cbn. symmetry. apply count_occ_not_In. intros Hin.
             apply Hk. apply (in_nodes _ Hi f Hf); auto.
      + cbn [z_nodes set_z_nodes]. rewrite G10. auto.
      + cbn [n_rc set_z_nodes]. rewrite G5. apply upd_same.
      + cbn [g_nodes set_z_nodes]. rewrite G2, in_app_iff. cbn. auto.
      + cbn [g_nodes n_rc set_z_nodes]. intros x Hx. rewrite G2, in_app_iff, G5, upd_other by auto. auto.
      + cbn [next_n set_z_nodes]. lia.
      + exact G11.
  Qed.
End Nodes.

(* ------------------------------------------------------------------ *)
(** * The stages of reading a zone *)

Section Stages.
  Context {F : FloatOps}.
  #[local] Strategy expand [build_node build_face build_conn build_zone build_event for_each].

  Lemma build_nodes_ok : forall z merge ps pts reps h,
    nodes_read merge pts reps h -> incid h ->
    (forall f, In f (g_faces h) -> f < next_f h) ->
    exists rp h', for_each ps (build_node z merge) h = (Ok tt, h') /\
      nodes_read merge (pts ++ ps) (reps ++ rp) h' /\ incid h' /\
      z_nodes h' z = z_nodes h z ++ rp /\
      Forall2 (fun p n => n_rc h' n = rnd p /\ In n (g_nodes h')) ps rp /\
      (forall m, In m (g_nodes h) -> In m (g_nodes h') /\ n_rc h' m = n_rc h m) /\
      restN h' = restN h.
  Proof.
    intros z merge. induction ps as [|p ps IH]; intros pts reps h Hr Hi Hf.
    - exists [], h. rewrite !app_nil_r. split; [reflexivity|]. repeat (split; auto).
    - destruct (build_node_ok z merge p pts reps h Hr Hi Hf)
        as (n & h1 & E1 & Hr1 & Hi1 & Hz1 & Hp1 & Hn1 & Old1 & _ & R1).
      destruct (IH (pts ++ [p]) (reps ++ [n]) h1 Hr1 Hi1) as (rp & h2 & E2 & Hr2 & Hi2 & Hz2 & Hp2 & Old2 & R2).
      { unfold restN in R1. intros f Hx. replace (next_f h1) with (next_f h) by congruence.
        apply Hf. congruence. }
      exists (n :: rp), h2. split; [cbn [for_each]; rewrite (bind_run _ _ _ _ _ _ _ E1); auto|].
      rewrite <- !app_assoc in Hr2. split; [auto|]. split; [auto|].
      split; [rewrite Hz2, Hz1, upd_same, <- app_assoc; auto|].
      split; [constructor; auto|].
      { destruct (Old2 n Hn1) as [H1 H2]. rewrite H2. auto. }
      split; [|congruence].
      intros m Hm. destruct (Old1 m Hm) as [H1 H2]. destruct (Old2 m H1) as [H3 H4]. split; congruence.
  Qed.

  Lemma build_face_ok : forall z vars row h, exists h', build_face z vars row h = (Ok tt, h') /\
    next_f h' = S (next_f h) /\ g_faces h' = g_faces h ++ [next_f h] /\
    z_faces h' = upd (z_faces h) z (z_faces h z ++ [next_f h]) /\
    restF h' = restF h /\ n_faces h' = n_faces h /\
    f_glo h' (next_f h) = Z.of_nat (length (g_faces h)) /\
    f_data h' = upd (f_data h) (next_f h) (dict_of str_dec (combine vars row)) /\
    f_nodes h' = upd (f_nodes h) (next_f h) [] /\ f_edges h' = upd (f_edges h) (next_f h) [] /\
    f_zone h' (next_f h) = Some z /\
    (forall f, f <> next_f h -> f_glo h' f = f_glo h f /\ f_zone h' f = f_zone h f).
  Proof.
    intros z vars row h. unfold build_face.
    destruct (new_face_run (dict_of str_dec (combine vars row)) h)
      as (h1 & E1 & A1 & A2 & A3 & A4 & A5 & A6 & A7 & A8 & A9 & A10 & A11).
    rewrite (bind_run _ _ _ _ _ _ _ E1).
    destruct (add_face_run (next_f h) h1) as (h2 & E2 & B1 & B2 & B3 & B4 & B5 & B6 & B7 & B8 & B9 & B10 & B11).
    rewrite (bind_run _ _ _ _ _ _ _ E2).
    destruct (zone_add_face_run z (next_f h) h2) as (h3 & E3 & C1 & C2 & C3 & C4 & C5 & C6 & C7 & C8 & C9 & C10 & C11).
    { rewrite B6, A5. apply upd_same. }
    exists h3. split; [exact E3|].
    split; [congruence|]. split; [congruence|]. split; [congruence|]. split; [congruence|]. split; [congruence|].
    split; [rewrite C3, B1, upd_same, A8; auto|]. split; [congruence|]. split; [congruence|]. split; [congruence|].
    split; [rewrite C1, upd_same; auto|].
    intros f Hf. rewrite C3, B1, A1, C1, B6, A5, !upd_other by auto. auto.
  Qed.

  Lemma build_faces_ok : forall z vars rows h,
    exists h', for_each rows (build_face z vars) h = (Ok tt, h') /\
    next_f h' = next_f h + length rows /\
    g_faces h' = g_faces h ++ seq (next_f h) (length rows) /\
    z_faces h' z = z_faces h z ++ seq (next_f h) (length rows) /\
    (forall y, y <> z -> z_faces h' y = z_faces h y) /\
    restF h' = restF h /\ n_faces h' = n_faces h /\
    (forall f, f < next_f h -> f_glo h' f = f_glo h f /\ f_data h' f = f_data h f /\
       f_nodes h' f = f_nodes h f /\ f_edges h' f = f_edges h f /\ f_zone h' f = f_zone h f) /\
    (forall k row, nth_error rows k = Some row ->
       f_glo h' (next_f h + k) = Z.of_nat (length (g_faces h) + k) /\
       f_data h' (next_f h + k) = dict_of str_dec (combine vars row) /\
       f_nodes h' (next_f h + k) = [] /\ f_edges h' (next_f h + k) = [] /\
       f_zone h' (next_f h + k) = Some z).
  Proof.
    intros z vars. induction rows as [|row rows IH]; intros h.
    - exists h. split; [reflexivity|]. cbn [length seq]. rewrite !app_nil_r.
      repeat (split; [solve [auto | lia]|]). intros [|k] row H; discriminate.
    - destruct (build_face_ok z vars row h) as (h1 & E1 & A1 & A2 & A3 & A4 & A5 & A6 & A7 & A8 & A9 & A10 & A11).
      destruct (IH h1) as (h2 & E2 & B1 & B2 & B3 & B4 & B5 & B6 & B7 & B8).
      exists h2. split; [cbn [for_each]; rewrite (bind_run _ _ _ _ _ _ _ E1); auto|].
      cbn [length seq]. rewrite A1 in *.
      split; [lia|]. split; [rewrite B2, A2, <- app_assoc; auto|].
      split; [rewrite B3, A3, upd_same, <- app_assoc; auto|].
      split; [intros y Hy; rewrite B4, A3, upd_other by auto; auto|].
      split; [congruence|]. split; [congruence|]. split.
      + intros f Hf. destruct (B7 f ltac:(lia)) as (G1 & G2 & G3 & G4 & G5).
        destruct (A11 f ltac:(lia)) as [G6 G7].
        rewrite G1, G2, G3, G4, G5, G6, G7, A7, A8, A9, !upd_other by lia. auto.
      + intros [|k] r Hk.
        * injection Hk as <-. rewrite !Nat.add_0_r.
          destruct (B7 (next_f h) ltac:(lia)) as (G1 & G2 & G3 & G4 & G5).
          rewrite G1, G2, G3, G4, G5, A6, A7, A8, A9, A10, !upd_same. auto.
        * cbn [nth_error] in Hk. destruct (B8 k r Hk) as (G1 & G2 & G3 & G4 & G5).
          replace (next_f h + S k) with (S (next_f h) + k) by lia.
          rewrite G1, A2, app_length. cbn [length]. split; [f_equal; lia|auto].
  Qed.

  Lemma count_snoc : forall l (x y : nat), count_occ Nat.eq_dec (l ++ [x]) y =
    (if Nat.eq_dec x y then S (count_occ Nat.eq_dec l y) else count_occ Nat.eq_dec l y).
  Proof. intros l x y. rewrite count_occ_app. cbn. destruct (Nat.eq_dec x y); lia. Qed.

  Lemma incid_link : forall n f h h1, incid h -> In n (g_nodes h) -> In f (g_faces h) ->
    link_node_face n f h = (Ok tt, h1) -> incid h1.
  Proof.
    intros n f h h1 Hi Hn Hf E.
    destruct (link_node_face_run n f h) as (h2 & E2 & A1 & A2 & A3 & A4 & A5 & A6 & A7 & A8 & A9 & A10 & A11).
    rewrite E2 in E. injection E as <-.
    assert (Eg : g_nodes h2 = g_nodes h) by (unfold restF in A11; congruence).
    constructor; rewrite ?Eg, ?A4.
    - intros g Hg. rewrite A2. destruct (Nat.eq_dec g f) as [->|Hne].
      + rewrite upd_same. intros x Hx. apply in_app_iff in Hx as [Hx|[<-|[]]]; auto.
        apply (in_nodes _ Hi f); auto.
      + rewrite upd_other by auto. apply (in_nodes _ Hi); auto.
    - intros m Hm. rewrite A1. destruct (Nat.eq_dec m n) as [->|Hne].
      + rewrite upd_same. intros x Hx. apply in_app_iff in Hx as [Hx|[<-|[]]]; auto.
        apply (in_faces _ Hi n); auto.
      + rewrite upd_other by auto. apply (in_faces _ Hi); auto.
    - intros m g Hm Hg. rewrite A1, A2. pose proof (in_count _ Hi m g Hm Hg) as Hc.
      destruct (Nat.eq_dec m n) as [->|Hne]; destruct (Nat.eq_dec g f) as [->|Hne2];
        rewrite ?upd_same, ?upd_other, ?count_snoc by auto;
        repeat (destruct Nat.eq_dec); try congruence; lia.
  Qed.

  (** Everything but the lists node.Faces and face.Nodes. *)
  Definition frameC (h : heap) :=
    (restF h, z_faces h, f_glo h, f_data h, f_edges h, f_zone h, f_mark h, next_f h, g_faces h).

  Lemma link3_ok : forall a b c f h, incid h -> In a (g_nodes h) -> In b (g_nodes h) -> In c (g_nodes h) ->
    In f (g_faces h) -> f_nodes h f = [] ->
    exists h', (link_node_face a f ;;; link_node_face b f ;;; link_node_face c f) h = (Ok tt, h') /\
      incid h' /\ frameC h' = frameC h /\ f_nodes h' f = [a; b; c] /\
      (forall g, g <> f -> f_nodes h' g = f_nodes h g).
  Proof.
    intros a b c f h Hi Ha Hb Hc Hf En.
    destruct (link_node_face_run a f h) as (h1 & E1 & A1 & A2 & A3 & A4 & A5 & A6 & A7 & A8 & A9 & A10 & A11).
    destruct (link_node_face_run b f h1) as (h2 & E2 & B1 & B2 & B3 & B4 & B5 & B6 & B7 & B8 & B9 & B10 & B11).
    destruct (link_node_face_run c f h2) as (h3 & E3 & C1 & C2 & C3 & C4 & C5 & C6 & C7 & C8 & C9 & C10 & C11).
    assert (G1 : g_nodes h1 = g_nodes h) by (unfold restF in A11; congruence).
    assert (G2 : g_nodes h2 = g_nodes h1) by (unfold restF in B11; congruence).
    assert (I1 : incid h1) by exact (incid_link a f h h1 Hi Ha Hf E1).
    assert (I2 : incid h2). { apply (incid_link b f h1 h2). auto. rewrite G1; auto. rewrite A4; auto. auto. }
    assert (I3 : incid h3) by (apply (incid_link c f h2 h3); [auto|rewrite G2, G1; auto|rewrite B4, A4; auto|auto]).
    exists h3. split; [rewrite (bind_run _ _ _ _ _ _ _ E1), (bind_run _ _ _ _ _ _ _ E2); auto|].
    split; [auto|]. split; [unfold frameC; congruence|].
    split.
    - rewrite C2, B2, A2, !upd_same, En. reflexivity.
    - intros g Hg. rewrite C2, B2, A2, !upd_other by auto. auto.
  Qed.

  Lemma build_conn_ok : forall z rp conn i h fs,
    z_faces h z = fs -> z_nodes h z = rp -> incid h ->
    (forall a b c, In (a, b, c) conn -> a < length rp /\ b < length rp /\ c < length rp) ->
    i + length conn = length fs -> NoDup fs -> incl fs (g_faces h) -> incl rp (g_nodes h) ->
    (forall k f, i <= k -> nth_error fs k = Some f -> f_nodes h f = []) ->
    exists h', build_conn z i conn h = (Ok tt, h') /\ incid h' /\ frameC h' = frameC h /\
      (forall f, (forall k, i <= k -> nth_error fs k <> Some f) -> f_nodes h' f = f_nodes h f) /\
      (forall k a b c f, nth_error conn k = Some (a, b, c) -> nth_error fs (i + k) = Some f ->
         exists na nb nc, nth_error rp a = Some na /\ nth_error rp b = Some nb /\ nth_error rp c = Some nc /\
           f_nodes h' f = [na; nb; nc]).
  Proof.
    intros z rp. induction conn as [|[[a b] c] conn IH]; intros i h fs Efs Erp Hi Hx Hl Hnd Hfs Hrp He.
    - exists h. split; [reflexivity|]. repeat (split; [auto|]). intros [|k] a b c f H; discriminate.
    - cbn [build_conn]. rewrite bind_gets, Efs.
      destruct (nth_error fs i) as [f|] eqn:Ef; [|apply nth_error_None in Ef; cbn in Hl; lia].
      rewrite (py_get_nat _ _ _ _ Ef), bind_lift_ok, bind_gets, Erp.
      destruct (Hx a b c (or_introl eq_refl)) as (La & Lb & Lc).
      destruct (nth_error rp a) as [na|] eqn:Ea; [|apply nth_error_None in Ea; lia].
      destruct (nth_error rp b) as [nb|] eqn:Eb; [|apply nth_error_None in Eb; lia].
      destruct (nth_error rp c) as [nc|] eqn:Ec; [|apply nth_error_None in Ec; lia].
      rewrite (py_get_nat _ _ _ _ Ea), (py_get_nat _ _ _ _ Eb), (py_get_nat _ _ _ _ Ec), !bind_lift_ok.
      destruct (link3_ok na nb nc f h Hi) as (h1 & E1 & I1 & F1 & N1 & O1).
      { apply Hrp. eapply nth_error_In; eauto. }
      { apply Hrp. eapply nth_error_In; eauto. }
      { apply Hrp. eapply nth_error_In; eauto. }
      { apply Hfs. eapply nth_error_In; eauto. }
      { apply (He i f); auto. }
      assert (Efs1 : z_faces h1 z = fs) by (unfold frameC in F1; congruence).
      assert (Erp1 : z_nodes h1 z = rp) by (unfold frameC, restF in F1; congruence).
      assert (Ef1 : g_faces h1 = g_faces h) by (unfold frameC in F1; congruence).
      assert (En1 : g_nodes h1 = g_nodes h) by (unfold frameC, restF in F1; congruence).
      assert (Uniq : forall k, nth_error fs k = Some f -> k = i).
      { intros k Hk. eapply NoDup_nth_error; eauto; [|congruence]. apply nth_error_Some. congruence. }
      destruct (IH (S i) h1 fs Efs1 Erp1 I1) as (h2 & E2 & I2 & F2 & O2 & N2).
      { intros; apply Hx; right; auto. }
      { cbn in Hl. lia. }
      { auto. }
      { rewrite Ef1. auto. }
      { rewrite En1. auto. }
      { intros k g Hk Hg. rewrite O1; [apply (He k g); auto; lia|].
        intros ->. apply Uniq in Hg. lia. }
      exists h2. split.
      { pose proof E1 as E1'. apply bind_inv in E1' as ([] & g1 & X1 & X2).
        apply bind_inv in X2 as ([] & g2 & X2 & X3).
        rewrite (bind_run _ _ _ _ _ _ _ X1), (bind_run _ _ _ _ _ _ _ X2), (bind_run _ _ _ _ _ _ _ X3). auto. }
      split; [auto|]. split; [congruence|]. split.
      + intros g Hg. rewrite O2, O1; auto.
        * intros ->. apply (Hg i); auto.
        * intros k Hk. apply Hg. lia.
      + intros [|k] a' b' c' g Hk Hg.
        * injection Hk as <- <- <-. rewrite Nat.add_0_r in Hg.
          assert (g = f) by congruence. subst g.
          exists na, nb, nc. repeat (split; [auto|]). rewrite O2; auto.
          intros k Hk Hk2. apply Uniq in Hk2. lia.
        * cbn [nth_error] in Hk. apply (N2 k a' b' c' g); auto. replace (S i + k) with (i + S k) by lia. auto.
  Qed.
End Stages.

(* ------------------------------------------------------------------ *)
(** * Zones and files *)

Section Placed.
  Context {F : FloatOps}.
  #[local] Strategy expand [build_node build_face build_conn build_zone build_event for_each].

  Record faces_read (h : heap) : Prop := {
    fr_nd : NoDup (g_faces h);
    fr_alloc : forall f, In f (g_faces h) -> f < next_f h;
    fr_glo : forall i f, nth_error (g_faces h) i = Some f -> f_glo h f = Z.of_nat i;
    fr_edges : forall f, In f (g_faces h) -> f_edges h f = [];
    fr_concat : g_faces h = flat_map (z_faces h) (g_zones h);
    fr_znd : NoDup (g_zones h);
    fr_zalloc : forall z, In z (g_zones h) -> z < next_z h;
    fr_ge : g_edges h = []
  }.

  (** The zone [z] holds the contents of the record [zr]; [rp] are the grid nodes for
      the nodes of the record. *)
  Definition zone_placed (h : heap) (z : nat) (zr : zone_rec) (rp : list nat) : Prop :=
    z_name h z = zr_name zr /\
    Forall2 (fun p n => n_rc h n = rnd p /\ In n (g_nodes h)) (zr_pts zr) rp /\
    length (z_faces h z) = length (zr_conn zr) /\
    forall k f, nth_error (z_faces h z) k = Some f -> f_zone h f = Some z /\
      exists row a b c na nb nc,
        nth_error (zr_data zr) k = Some row /\ nth_error (zr_conn zr) k = Some (a, b, c) /\
        f_data h f = dict_of str_dec (combine (zr_vars zr) row) /\
        nth_error rp a = Some na /\ nth_error rp b = Some nb /\ nth_error rp c = Some nc /\
        f_nodes h f = [na; nb; nc].

  Definition placed (merge : bool) (zs : list zone_rec) (h : heap) : Prop :=
    exists reps, nodes_read merge (all_pts zs) (concat reps) h /\ incid h /\ faces_read h /\
      length reps = length zs /\ length (g_zones h) = length zs /\
      forall i z zr rp, nth_error (g_zones h) i = Some z -> nth_error zs i = Some zr ->
        nth_error reps i = Some rp -> zone_placed h z zr rp.

  Lemma zone_placed_keep : forall h h' z zr rp, zone_placed h z zr rp ->
    z_name h' z = z_name h z -> z_faces h' z = z_faces h z ->
    (forall n, In n (g_nodes h) -> In n (g_nodes h') /\ n_rc h' n = n_rc h n) ->
    (forall f, In f (z_faces h z) -> f_zone h' f = f_zone h f /\ f_data h' f = f_data h f /\
       f_nodes h' f = f_nodes h f) ->
    zone_placed h' z zr rp.
  Proof.
    intros h h' z zr rp (H1 & H2 & H3 & H4) En Ef Hn Hf. split; [congruence|]. split; [|split].
    - eapply Forall2_imp; [|exact H2]. cbn. intros p n [Hp Hi]. destruct (Hn n Hi) as [Ha Hb].
      rewrite Hb. auto.
    - rewrite Ef. auto.
    - intros k f Hk. rewrite Ef in Hk. destruct (H4 k f Hk) as (G1 & row & a & b & c & na & nb & nc & G2).
      destruct (Hf f) as (K1 & K2 & K3); [eapply nth_error_In; eauto|].
      split; [congruence|]. exists row, a, b, c, na, nb, nc. rewrite K2, K3. auto.
  Qed.

  Lemma nth_error_snoc : forall A (l : list A) x i y, nth_error (l ++ [x]) i = Some y ->
    (i < length l /\ nth_error l i = Some y) \/ (i = length l /\ y = x).
  Proof.
    intros A l x i y H. destruct (Nat.lt_ge_cases i (length l)).
    - rewrite nth_error_app1 in H by auto. auto.
    - rewrite nth_error_app2 in H by auto. destruct (i - length l) as [|j] eqn:Ej.
      + injection H as <-. right. split; [lia|auto].
      + destruct j; discriminate.
  Qed.

  Lemma Forall2_nth_l : forall A B (R : A -> B -> Prop) l l', Forall2 R l l' ->
    forall i y, nth_error l' i = Some y -> exists x, nth_error l i = Some x /\ R x y.
  Proof.
    intros A B R l l' H. induction H; intros [|i] z Hi; try discriminate.
    - injection Hi as <-. exists x. auto.
    - apply IHForall2. auto.
  Qed.

  Lemma build_zone_ok : forall merge zs zr h, placed merge zs h -> zone_rec_ok zr ->
    exists h', build_zone merge zr h = (Ok tt, h') /\ placed merge (zs ++ [zr]) h' /\
      g_name h' = g_name h /\ g_nborder h' = g_nborder h.
  Proof.
    intros merge zs zr h (reps & Hr & Hi & Hf & Lr & Lz & Hp) (Z1 & Z2 & Z3).
    destruct (new_zone_facts (zr_name zr) h) as
      (h1 & E1 & A1 & A2 & A3 & A4 & A5 & A6 & A7 & A8 & A9 & A10 & A11 & A12 & A13).
    remember (next_z h) as z eqn:Ez.
    injection A11 as B1 B2 B3 B4 B5 B6 B7 B8 B9. injection A12 as C1 C2 C3 C4 C5.
    injection A13 as D1 D2 D3 D4 D5 D6 D7 D8.
    assert (Hzn : ~ In z (g_zones h)).
    { intros H. apply (fr_zalloc _ Hf) in H. lia. }
    assert (Hr1 : nodes_read merge (all_pts zs) (concat reps) h1).
    { destruct Hr. constructor; rewrite ?B1, ?B2, ?B3, ?B4, ?B5, ?B7, ?B8, ?B9; auto. }
    assert (Hi1 : incid h1).
    { destruct Hi. constructor; rewrite ?B5, ?B8, ?D3, ?D8; auto. }
    destruct (build_nodes_ok z merge (zr_pts zr) _ _ h1 Hr1 Hi1)
      as (rp & h2 & E2 & Hr2 & Hi2 & Hz2 & Hp2 & Old2 & R2).
    { rewrite D8, D7. apply (fr_alloc _ Hf). }
    rewrite A3, upd_same in Hz2. cbn [app] in Hz2.
    unfold restN in R2. injection R2 as X1 X2 X3 X4 X5 X6 X7 X8 X9 X10 X11 X12 X13 X14 X15 X16 X17 X18 X19 X20 X21 X22.
    destruct (build_faces_ok z (zr_vars zr) (zr_data zr) h2)
      as (h3 & E3 & G1 & G2 & G3 & G4 & G5 & G6 & G7 & G8).
    rewrite X17, A5, upd_same in G3. cbn [app] in G3.
    rewrite X12, D7 in *. rewrite X13, D8 in G2.
    unfold restF in G5.
    injection G5 as Y1 Y2 Y3 Y4 Y5 Y6 Y7 Y8 Y9 Y10 Y11 Y12 Y13 Y14 Y15 Y16 Y17 Y18 Y19 Y20 Y21 Y22.
    set (fs := seq (next_f h) (length (zr_data zr))) in *.
    assert (Hfs : forall f, In f fs <-> next_f h <= f < next_f h + length (zr_data zr)).
    { intros f. unfold fs. apply in_seq. }
    assert (Hnew : forall f, In f fs -> exists k row, f = next_f h + k /\ nth_error (zr_data zr) k = Some row).
    { intros f H. apply Hfs in H. exists (f - next_f h).
      destruct (nth_error (zr_data zr) (f - next_f h)) as [row|] eqn:Er; [|apply nth_error_None in Er; lia].
      exists row. split; auto; lia. }
    assert (Hi3 : incid h3).
    { constructor; rewrite ?Y7, ?G6.
      - intros f H. rewrite G2 in H. apply in_app_iff in H as [H|H].
        + destruct (G7 f) as (_ & _ & -> & _); [apply (fr_alloc _ Hf); auto|].
          apply (in_nodes _ Hi2). congruence.
        + destruct (Hnew f H) as (k & row & -> & Hk). destruct (G8 k row Hk) as (_ & _ & -> & _).
          intros x [].
      - intros n H x Hx. rewrite G2, in_app_iff. left.
        apply (in_faces _ Hi2 n H) in Hx. congruence.
      - intros n f Hn H. rewrite G2 in H. apply in_app_iff in H as [H|H].
        + destruct (G7 f) as (_ & _ & -> & _); [apply (fr_alloc _ Hf); auto|].
          apply (in_count _ Hi2); congruence.
        + assert (Hni : ~ In f (n_faces h2 n)).
          { intros Hx. apply (in_faces _ Hi2 n Hn) in Hx. rewrite X13, D8 in Hx.
            apply (fr_alloc _ Hf) in Hx. apply Hfs in H. lia. }
          destruct (Hnew f H) as (k & row & -> & Hk). destruct (G8 k row Hk) as (_ & _ & -> & _).
          cbn. apply count_occ_not_In. auto. }
    assert (Lfs : length fs = length (zr_data zr)) by (unfold fs; apply seq_length).
    assert (Lrp : length rp = length (zr_pts zr)) by (symmetry; eapply Forall2_len'; eauto).
    assert (Nfs : NoDup (g_faces h ++ fs)).
    { assert (NoDup fs) by apply seq_NoDup. clear - H Hf Hfs.
      pose proof (fr_nd _ Hf). pose proof (fr_alloc _ Hf).
      induction (g_faces h) as [|x l IH]; cbn; auto. inv H0. constructor.
      - rewrite in_app_iff. intros [Hx|Hx]; auto. apply Hfs in Hx. specialize (H1 x (or_introl eq_refl)). lia.
      - apply IH; auto. intros; apply H1; right; auto. }
    destruct (build_conn_ok z rp (zr_conn zr) 0 h3 fs) as (h4 & E4 & Hi4 & F4 & O4 & N4).
    { auto. }
    { rewrite Y16. auto. }
    { auto. }
    { intros a b c H. rewrite Lrp. auto. }
    { lia. }
    { apply seq_NoDup. }
    { rewrite G2. intros x Hx. apply in_app_iff. auto. }
    { rewrite Y7. intros n Hn. apply In_nth_error in Hn as (i & Hn).
      destruct (Forall2_nth_l _ _ _ _ _ Hp2 i n Hn) as (p & _ & _ & H). auto. }
    { intros k f _ Hk. apply nth_error_In in Hk. destruct (Hnew f Hk) as (j & row & -> & Hj).
      apply (G8 j row Hj). }
    unfold frameC, restF in F4.
    injection F4 as W1 W2 W3 W4 W5 W6 W7 W8 W9 W10 W11 W12 W13 W14 W15 W16 W17 W18 W19 W20 W21 W22 W23 W24 W25 W26 W27 W28 W29 W30.
    exists h4. split; [|split; [|split]].
    { unfold build_zone. apply bind_inv in E1 as (z' & g1 & Q1 & Q2).
      apply bind_inv in Q2 as ([] & g2 & Q2 & Q3). injection Q3 as <- <-.
      rewrite (bind_run _ _ _ _ _ _ _ Q1), (bind_run _ _ _ _ _ _ _ Q2), (bind_run _ _ _ _ _ _ _ E2),
        (bind_run _ _ _ _ _ _ _ E3). exact E4. }
    2:{ congruence. }
    2:{ congruence. }
    assert (OldF : forall f, In f (g_faces h) -> f_nodes h4 f = f_nodes h f).
    { intros f H. rewrite O4.
      - destruct (G7 f) as (_ & _ & -> & _); [apply (fr_alloc _ Hf); auto|]. congruence.
      - intros k _ Hk. apply nth_error_In, Hfs in Hk. apply (fr_alloc _ Hf) in H. lia. }
    exists (reps ++ [rp]). split; [|split; [|split; [|split; [|split]]]].
    - unfold all_pts in *. rewrite flat_map_app, concat_app. cbn [flat_map concat]. rewrite !app_nil_r.
      destruct Hr2. constructor; rewrite ?W1, ?W2, ?W3, ?W4, ?W6, ?W7, ?W8, ?Y1, ?Y2, ?Y3, ?Y4, ?Y6, ?Y7, ?Y8; auto.
    - auto.
    - assert (Ez4 : g_zones h4 = g_zones h ++ [z]) by congruence.
      constructor.
      + rewrite W30, G2. auto.
      + intros f H. rewrite W30, G2 in H. rewrite W29, G1. apply in_app_iff in H as [H|H].
        * apply (fr_alloc _ Hf) in H. lia.
        * apply Hfs in H. lia.
      + intros i f H. rewrite W30, G2 in H. rewrite W24.
        destruct (Nat.lt_ge_cases i (length (g_faces h))).
        * rewrite nth_error_app1 in H by auto.
          destruct (G7 f) as (-> & _); [apply (fr_alloc _ Hf); eapply nth_error_In; eauto|].
          rewrite X6, D1. apply (fr_glo _ Hf); auto.
        * rewrite nth_error_app2 in H by auto. set (k := i - length (g_faces h)) in *.
          assert (Hk : k < length fs) by (apply nth_error_Some; congruence).
          unfold fs in H. rewrite nth_error_nth' with (d := 0) in H by (fold fs; auto).
          rewrite seq_nth in H by lia. injection H as <-.
          destruct (nth_error (zr_data zr) k) as [row|] eqn:Er; [|apply nth_error_None in Er; lia].
          destruct (G8 k row Er) as (-> & _). rewrite X13, D8. f_equal. lia.
      + intros f H. rewrite W30, G2 in H. rewrite W26. apply in_app_iff in H as [H|H].
        * destruct (G7 f) as (_ & _ & _ & -> & _); [apply (fr_alloc _ Hf); auto|].
          rewrite X9, D4. apply (fr_edges _ Hf); auto.
        * destruct (Hnew f H) as (k & row & -> & Hk). apply (G8 k row Hk).
      + rewrite W30, G2, Ez4, flat_map_app. cbn [flat_map]. rewrite app_nil_r, W23, G3.
        f_equal. rewrite (fr_concat _ Hf) at 1. rewrite !flat_map_concat_map. f_equal.
        apply map_ext_in. intros y Hy. assert (y <> z) by (intros ->; auto).
        rewrite G4, X17, A5, upd_other by auto. auto.
      + rewrite Ez4. apply NoDup_snoc; auto. apply (fr_znd _ Hf).
      + intros y H. rewrite Ez4 in H. replace (next_z h4) with (S z) by congruence.
        apply in_app_iff in H as [H|[<-|[]]]; [|lia]. apply (fr_zalloc _ Hf) in H. lia.
      + replace (g_edges h4) with (g_edges h) by congruence. apply (fr_ge _ Hf).
    - rewrite !app_length. cbn. lia.
    - replace (g_zones h4) with (g_zones h ++ [z]) by congruence. rewrite !app_length. cbn. lia.
    - intros i y yr rq Hy Hyr Hrq.
      replace (g_zones h4) with (g_zones h ++ [z]) in Hy by congruence.
      apply nth_error_snoc in Hy as [[Li Hy]|[Li ->]].
      + rewrite nth_error_app1 in Hyr, Hrq by lia.
        assert (Hyin : In y (g_zones h)) by (eapply nth_error_In; eauto).
        assert (Hyz : y <> z) by (intros ->; auto).
        apply zone_placed_keep with (h := h).
        * apply (Hp i); auto.
        * rewrite W15, Y15, X15, A2, upd_other by auto. auto.
        * rewrite W23, G4, X17, A5, upd_other by auto. auto.
        * intros n Hn. rewrite <- B8 in Hn. destruct (Old2 n Hn) as [K1 K2].
          rewrite W7, Y7, W3, Y3, K2, B3. auto.
        * intros f H.
          assert (Hfg : In f (g_faces h)).
          { rewrite (fr_concat _ Hf). apply in_flat_map. eauto. }
          destruct (G7 f) as (_ & K2 & _ & _ & K5); [apply (fr_alloc _ Hf); auto|].
          rewrite W27, K5, X10, D5, W25, K2, X7, D2, OldF; auto.
      + rewrite Lz in Li. subst i. rewrite nth_error_app2, Nat.sub_diag in Hyr by lia. cbn in Hyr.
        injection Hyr as <-. rewrite <- Lr in Hrq. rewrite nth_error_app2, Nat.sub_diag in Hrq by lia.
        cbn in Hrq. injection Hrq as <-.
        split; [rewrite W15, Y15, X15, A2, upd_same; auto|]. split; [|split].
        * rewrite W7, Y7. eapply Forall2_imp; [|exact Hp2]. cbn. intros p n [K1 K2]. rewrite W3, Y3. auto.
        * rewrite W23, G3, Lfs. auto.
        * rewrite W23, G3. intros k f Hk.
          assert (Lk : k < length fs) by (apply nth_error_Some; congruence).
          pose proof Hk as Hk'. unfold fs in Hk'. rewrite nth_error_nth' with (d := 0) in Hk' by (fold fs; auto).
          rewrite seq_nth in Hk' by lia. injection Hk' as Ef.
          destruct (nth_error (zr_data zr) k) as [row|] eqn:Er; [|apply nth_error_None in Er; lia].
          destruct (nth_error (zr_conn zr) k) as [[[a b] c]|] eqn:Ec; [|apply nth_error_None in Ec; lia].
          destruct (G8 k row Er) as (_ & K2 & _ & _ & K5). rewrite Ef in K2, K5.
          destruct (N4 k a b c f Ec Hk) as (na & nb & nc & Ea & Eb & Ecc & En).
          split; [rewrite W27; auto|].
          exists row, a, b, c, na, nb, nc. repeat (split; [congruence|]). auto.
  Qed.
End Placed.
