(** Sequences of transformations of a grid. *)

From Coq Require Import ZArith NArith Ascii String Bool Lia List Permutation.
From Verif Require Import Py PyLemmas Heap HeapLemmas GridModel GridSpec DecompSpec StoreSpec SimpleDecomp DecompProofs FarhatProofs DecompMain
  Atomic AtomicSpec AtomicActs PatchProofs PatchDel PatchDone AtomicRun AtomicProofs AtomicTwo AtomicCut AtomicInner AtomicFlip AtomicMain CollapseSpec CollapseTopo.
Import ListNotations.
Open Scope list_scope.
Open Scope nat_scope.

Section Seq.
  Context {F : FloatOps}.

  Lemma decomposed_consistent : forall h h' nm, sound h -> decomposed h h' nm -> consistent h'.
  Proof.
    intros h h' nm (T & ZO & ZL & Nu & Me) (M & _ & Z1 & Z2 & _). unfold mesh in M. injection M as
      A1 A2 A3 A4 A5 A6 A7 A8 A9 B1 B2 B3 B4 C1 C2 C3 C4 C5 D1 D2 D3.
    split; [|split; [auto|split; [auto|split]]].
    - destruct T. constructor; rewrite ?A1, ?A2, ?A3, ?A4, ?A5, ?A6, ?A7, ?A8, ?A9, ?B1, ?B2, ?B3, ?B4, ?C1, ?C2, ?C3, ?D1, ?D2, ?D3; auto.
    - unfold numbered. rewrite A1, A7, B1, C1, C2, C3. exact Nu.
    - unfold nodes_merged. rewrite A2, A3, C1, C4. exact Me.
  Qed.

  Lemma decomposed_no_double : forall h h' nm, no_double_faces h -> decomposed h h' nm -> no_double_faces h'.
  Proof.
    intros h h' nm N (M & _). unfold mesh in M. injection M as
      A1 A2 A3 A4 A5 A6 A7 A8 A9 B1 B2 B3 B4 C1 C2 C3 C4 C5 D1 D2 D3. unfold no_double_faces. rewrite C3, B3. exact N.
  Qed.

  Lemma ends_of : forall h e, topo_ok h -> In e (g_edges h) -> exists a b, e_nodes h e = [a; b] /\ a <> b.
  Proof.
    intros h e T He. destruct (t_edge_nodes h T e He) as (L & N & _). destruct (e_nodes h e) as [|a [|b [|c r]]]; try discriminate L.
    exists a, b. split; auto. apply NoDup_cons_iff in N as [K _]. intros ->. apply K. left; auto.
  Qed.

  Lemma faces_of : forall h e, topo_ok h -> In e (g_edges h) ->
    (exists f, e_faces h e = [f]) \/ exists f g, e_faces h e = [f; g] /\ f <> g.
  Proof.
    intros h e T He. destruct (t_edge_faces h T e He) as (L & N & _). destruct (e_faces h e) as [|a [|b [|c r]]]; cbn in L; try lia.
    - left. eauto.
    - right. exists a, b. split; auto. apply NoDup_cons_iff in N as [K _]. intros ->. apply K. left; auto.
  Qed.

  Lemma pair_corners : forall h f g, no_double_faces h -> In f (g_faces h) -> In g (g_faces h) ->
    forall a b, a <> b -> In a [f; g] -> In b [f; g] -> ~ incl (f_nodes h a) (f_nodes h b).
  Proof.
    intros h f g N Hf Hg a b D Ha Hb K. apply D. apply N; auto.
    - destruct Ha as [<-|[<-|[]]]; auto.
    - destruct Hb as [<-|[<-|[]]]; auto.
  Qed.

  (** Different corners. *)
  Lemma old_new : forall dst h h' P n p m, patched_to dst h h' P -> In (n, p) (made_nodes P) -> In m (g_nodes h) -> m <> n.
  Proof. intros dst h h' P n p m Pa Hn Hm ->. apply (pa_new_node _ _ _ _ Pa) in Hn. tauto. Qed.

  Lemma new_new : forall dst h h' P n m, topo_ok h' -> patched_to dst h h' P -> map fst (made_nodes P) = [n; m] -> n <> m.
  Proof.
    intros dst h h' P n m T Pa E. pose proof (t_nodes_nd h' T) as N. rewrite (pa_nodes _ _ _ _ Pa), E in N.
    apply NoDup_app_inv in N as (_ & N & _). apply NoDup_cons_iff in N as [K _]. intros ->. apply K. left; auto.
  Qed.

  (** Corners of new faces: each has a new edge, no two agree. *)
  Ltac made_edge := let x := fresh in let H := fresh in intros x H; cbn in H;
    repeat (destruct H as [<-|H]); [..|destruct H];
    cbn; first [ solve [do 3 eexists; split; [left; reflexivity|cbn; auto]]
               | solve [do 3 eexists; split; [right; left; reflexivity|cbn; auto]]
               | solve [do 3 eexists; split; [right; right; left; reflexivity|cbn; auto]]
               | solve [do 3 eexists; split; [right; right; right; left; reflexivity|cbn; auto]]
               | solve [do 3 eexists; split; [right; right; right; right; left; reflexivity|cbn; auto]]
               | solve [do 3 eexists; split; [right; right; right; right; right; left; reflexivity|cbn; auto]]
               | solve [do 3 eexists; split; [right; right; right; right; right; right; left; reflexivity|cbn; auto]] ].

  Lemma incl3 : forall (a b c : nat) l, incl [a; b; c] l -> In a l /\ In b l /\ In c l.
  Proof. intros a b c l H. repeat split; apply H; cbn; auto. Qed.

  Ltac made_differ := let x := fresh in let y := fresh in let H := fresh in let K := fresh in let I := fresh in
    intros x y H K I; cbn in H, K;
    repeat (destruct H as [<-|H]); [..|destruct H];
    repeat (destruct K as [<-|K]); try destruct K; try reflexivity;
    exfalso; cbn in I; apply incl3 in I; cbn in I; intuition congruence.

  Lemma carried_app : forall l1 l2 h1 h2 h3, carried l1 h1 h2 -> carried l2 h2 h3 -> carried (l1 ++ l2) h1 h3.
  Proof.
    intros l1 l2 h1 h2 h3 [A1 A2 A3] [B1 B2 B3]. constructor; [auto| |].
    - intros f Hf. destruct (B2 f Hf) as (g & Hg & E). destruct (A2 g Hg) as (k & Hk & E'). exists k. split; auto. congruence.
    - intros Hs P. apply B3; [intros s K; apply Hs, in_or_app; auto|]. apply A3; auto. intros s K. apply Hs, in_or_app. auto.
  Qed.

  Lemma patched_data : forall dst h h' P l, patched_to dst h h' P -> made_faces P <> [] -> carried l h h'.
  Proof.
    intros dst h h' P nms Pa Ne. constructor.
    { intros _ E. destruct (pa_faces _ _ _ _ Pa) as (l & l' & _ & E' & Q). rewrite E in E'. symmetry in E'.
      apply app_eq_nil in E' as [_ ->]. apply Permutation_nil in Q. unfold made_face_ids in Q.
      apply map_eq_nil in Q. auto. }
    2:{ intros _ [P1 P2]. destruct (pa_zones _ _ _ _ Pa) as (Z1 & Z2 & _). destruct (pa_rest _ _ _ _ Pa) as [R1 _].
        split; [rewrite R1; auto|]. intros z. rewrite Z1, Z2. auto. }
    intros f Hf. destruct (pa_faces _ _ _ _ Pa) as (l & l' & O & E & Q). rewrite E in Hf.
    apply in_app_iff in Hf as [Hf|Hf].
    - apply (DecompProofs.sublist_In _ _ _ _ _ O) in Hf as [Hf _]. exists f. split; auto. apply (pa_old_face _ _ _ _ Pa); auto.
    - apply (Permutation_in _ Q) in Hf. unfold made_face_ids in Hf. apply in_map_iff in Hf as ([[f' [[a b] c]] g] & E' & Hx).
      cbn in E'. subst f'. destruct (pa_new_face _ _ _ _ Pa _ _ _ _ _ Hx) as (_ & Hg & _ & D & _).
      exists g. split; auto. apply (pa_gone _ _ _ _ Pa). auto.
  Qed.

  Lemma decomposed_data : forall h h' nm, decomposed h h' nm ->
    (plain_names h -> forall z, In z (g_zones h') -> plain_name (z_name h' z)) -> carried [nm] h h'.
  Proof.
    intros h h' nm (M & Nm & _) Hz. unfold mesh in M. injection M as
      A1 A2 A3 A4 A5 A6 A7 A8 A9 B1 B2 B3 B4 C1 C2 C3 C4 C5 D1 D2 D3. constructor.
    - rewrite C3. auto.
    - intros f Hf. exists f. rewrite C3 in Hf. split; auto. congruence.
    - intros Hs P. split; [|auto]. rewrite Nm. destruct nm as [s|]; [apply Hs; left; auto|apply P].
  Qed.

  Lemma same_data : forall l h, carried l h h.
  Proof. intros l h. constructor; auto. intros f Hf. exists f. auto. Qed.

  (** Names of zones. *)
  Lemma numbered_name : forall s i, forallb (fun c => negb (Ascii.eqb c eqsign) && negb (Ascii.eqb c nl) && negb (Ascii.eqb c cr)) s = true ->
    plain_name (s ++ nat_str i).
  Proof.
    intros s i H c Hc. apply in_app_or in Hc as [Hc|Hc].
    - rewrite forallb_forall in H. specialize (H c Hc). repeat split; intros ->; vm_compute in H; discriminate H.
    - pose proof (N_str_digits (N.of_nat i)) as G. rewrite forallb_forall in G. apply G in Hc.
      repeat split; intros ->; vm_compute in Hc; discriminate.
  Qed.

  Lemma mono_name : plain_name (lit "mono").
  Proof. intros c Hc. cbn in Hc. repeat split; intros ->; repeat destruct Hc as [Hc|Hc]; try discriminate; auto. Qed.

  Lemma hier_name : forall w, Forall (fun c => c = "l"%char \/ c = "r"%char) w -> plain_name (lit "h" ++ w).
  Proof.
    intros w H c Hc. rewrite Forall_forall in H. apply in_app_or in Hc as [[<-|[]]|Hc].
    - repeat split; discriminate.
    - destruct (H c Hc) as [->| ->]; repeat split; discriminate.
  Qed.

  Lemma named_In : forall h names K z, zones_named h names K -> In z K -> In z (g_zones h).
  Proof. intros h names K z H Hz. apply (DecompProofs.sublist_In _ _ _ _ z H) in Hz. tauto. Qed.

  (** What a patch gives for sequences. *)
  Lemma patch_step : forall z h h' P, sound h -> no_double_faces h -> rebuilt z h h' P ->
    (forall x, In x (made_faces P) -> exists e a b, In (e, (a, b)) (made_edges P) /\ In a (corners x) /\ In b (corners x)) ->
    (forall x y, In x (made_faces P) -> In y (made_faces P) -> incl (corners x) (corners y) -> fst (fst x) = fst (fst y)) ->
    made_faces P <> [] ->
    sound h' /\ no_double_faces h' /\ carried [None] h h'.
  Proof.
    intros z h h' P (T & _) Nd (S' & _ & Pa & _) H1 H2 H3. split; [auto|].
    split; [|eapply patched_data; eauto].
    destruct S' as (T' & _). exact (patched_no_double _ _ _ _ T T' Pa Nd H1 H2).
  Qed.

  Lemma refuse_step : forall h, sound h -> no_double_faces h ->
    sound h /\ no_double_faces h /\ carried [None] h h /\ (forall Q : Prop, zone_lists_ok h \/ False -> Q -> zone_lists_ok h).
  Proof. intros h Co Nd. split; [auto|]. split; [auto|]. split; [apply same_data|]. intros Q [K|[]] _. auto. Qed.

  (** Every call but the contraction of an edge, in grids whose lists of members of zones
      need not fit their faces. *)
  Theorem act_any : forall h a, sound h -> no_double_faces h -> allowed_any h a ->
    exists h', perform a h = (Ok tt, h') /\ sound h' /\ no_double_faces h' /\ carried [new_name a] h h' /\
      (zone_lists_ok h \/ decomposing a -> in_one_zone h a -> zone_lists_ok h').
  Proof.
    intros h a Co Nd Al. pose proof Co as (T & ZO & ZL & Nu & Me). assert (G : grid_ok h) by (split; auto).
    assert (Dec : forall m nm b, (exists h', m h = (Ok tt, h') /\ decomposed h h' nm /\
        (plain_names h -> forall z, In z (g_zones h') -> plain_name (z_name h' z))) ->
      exists h', m h = (Ok tt, h') /\ sound h' /\ no_double_faces h' /\ carried [nm] h h' /\ (zone_lists_ok h \/ decomposing b -> in_one_zone h b -> zone_lists_ok h')).
    { intros m nm b (h' & E & D & Pn). exists h'. split; auto. pose proof (decomposed_consistent h h' nm Co D) as C'.
      split; [apply consistent_sound; auto|]. split; [eapply decomposed_no_double; eauto|].
      split; [eapply decomposed_data; eauto|]. intros _ _. apply C'. }
    destruct a as [nm|rand count nm|count nm|count nm names|fns last levels nm names|f p|e p|e p|e p q|f|e|]; cbn [perform allowed_any allowed in_one_zone new_name decomposing] in *.
    - apply (Dec _ nm (ADecompMono nm)). destruct (mono_ok nm h G) as (h' & z & E & D & Ez & En & _).
      exists h'. split; [auto|]. split; [auto|]. intros _ y Hy. rewrite Ez in Hy. destruct Hy as [<-|[]]. rewrite En. apply mono_name.
    - apply (Dec _ nm (ADecompMono nm)). destruct (random_ok rand count nm h G Al) as (h' & E & D & _ & En & _).
      exists h'. split; [auto|]. split; [auto|]. intros _ y Hy. apply In_nth_error in Hy as (i & Hi). rewrite (En i y Hi). apply numbered_name. reflexivity.
    - apply (Dec _ nm (ADecompMono nm)). destruct (linear_main count nm h G Al) as (h' & E & D & _ & _ & En & _).
      exists h'. split; [auto|]. split; [auto|]. intros _ y Hy. apply In_nth_error in Hy as (i & Hi). rewrite (En i y Hi). apply numbered_name. reflexivity.
    - apply (Dec _ nm (ADecompMono nm)). destruct Al as [A1 A2]. destruct (farhat_main count nm names h G A1 A2) as (h' & K & Tz & E & D & HK & Ez & _ & Ek & En & _).
      exists h'. split; [auto|]. split; [auto|]. intros [_ P] y Hy. rewrite Ez in Hy. apply in_app_or in Hy as [Hy|Hy].
      + rewrite (proj2 (Ek y Hy)). apply P. eapply named_In; eauto.
      + apply In_nth_error in Hy as (i & Hi). rewrite (En i y Hi). apply numbered_name. reflexivity.
    - apply (Dec _ nm (ADecompMono nm)). destruct Al as (A1 & A2 & A3 & K & A4 & A5).
      destruct (hier_total fns last levels nm names K h A1 A2 G A3 A4 A5) as (h' & E & D).
      destruct (hier_keeps _ _ _ _ h h' A1 A2 G E) as (K' & N & HK & Ez & _ & _ & Ek & En & _).
      exists h'. split; [auto|]. split; [auto|]. intros [_ P] y Hy. rewrite Ez in Hy. apply in_app_or in Hy as [Hy|Hy].
      + rewrite (proj2 (Ek y Hy)). apply P. eapply named_In; eauto.
      + destruct (En y Hy) as (w & -> & Hw). apply hier_name; auto.
    - (* divide_face *)
      destruct Al as [Hf Hp]. destruct (t_face_nodes h T f Hf) as (L & N & Hi).
      destruct (f_nodes h f) as [|n1 [|n2 [|n3 [|n4 r]]]] eqn:En; try discriminate L.
      destruct (divide_face_any h f p n1 n2 n3 Co Hf Hp En) as (z & h' & n & e4 & e5 & e6 & f1 & f2 & f3 & E & Ez & R).
      exists h'. split; auto. pose proof (proj1 (proj1 R)) as T'.
      apply NoDup3 in N as (D1 & D2 & D3).
      assert (X : forall m, In m [n1; n2; n3] -> m <> n).
      { intros m Hm. eapply old_new; [apply R|left; reflexivity|]. apply Hi; auto. }
      pose proof (X n1 ltac:(cbn; auto)). pose proof (X n2 ltac:(cbn; auto)). pose proof (X n3 ltac:(cbn; auto)).
      destruct (patch_step _ _ _ _ Co Nd R) as (Y1 & Y2 & Y3); [made_edge|made_differ|discriminate|].
      split; [exact Y1|]. split; [exact Y2|]. split; [exact Y3|]. intros [Zl|[]] Zo. apply R; [exact Zl|]. intros x [<-|[]]. exact Ez.
    - (* cut_single_edge *)
      destruct Al as [He Hp]. destruct (ends_of h e T He) as (n1 & n2 & En & D12).
      destruct (faces_of h e T He) as [(f & Ef)|(f & g & Ef & _)].
      + destruct (cut_single_edge_any h e f p n1 n2 Co He Ef En Hp) as (z & h' & n3 & n & e14 & e24 & e34 & f1 & f2 & H3 & X1 & X2 & E & Ez & R).
        exists h'. split; [rewrite (bind_run _ _ _ _ _ _ _ E); reflexivity|]. pose proof (proj1 (proj1 R)) as T'.
        assert (Hf : In f (g_faces h)) by (apply (t_edge_faces h T e He); rewrite Ef; left; auto).
        assert (X : forall m, In m [n1; n2; n3] -> m <> n).
        { intros m Hm. eapply old_new; [apply R|left; reflexivity|]. destruct Hm as [<-|[<-|[<-|[]]]].
          - apply (t_edge_nodes h T e He). rewrite En. cbn; auto.
          - apply (t_edge_nodes h T e He). rewrite En. cbn; auto.
          - apply (t_face_nodes h T f Hf). auto. }
        pose proof (X n1 ltac:(cbn; auto)). pose proof (X n2 ltac:(cbn; auto)). pose proof (X n3 ltac:(cbn; auto)).
        destruct (patch_step _ _ _ _ Co Nd R) as (Y1 & Y2 & Y3); [made_edge|made_differ|discriminate|].
        split; [exact Y1|]. split; [exact Y2|]. split; [exact Y3|]. intros [Zl|[]] Zo. apply R; [exact Zl|]. intros x [<-|[]]. exact Ez.
      + exists h. split; [|destruct (refuse_step h Co Nd) as (Y1 & Y2 & Y3 & Y4); exact (conj Y1 (conj Y2 (conj Y3 (Y4 _))))]. rewrite (bind_run _ _ _ _ _ _ _ (cut_single_edge_no h e p ltac:(rewrite Ef; cbn; lia))). reflexivity.
    - (* cut_edge *)
      destruct Al as (He & Hp). destruct (ends_of h e T He) as (n1 & n2 & En & D12).
      destruct (faces_of h e T He) as [(f & Ef)|(f & g & Ef & Dfg)].
      + exists h. split; [|destruct (refuse_step h Co Nd) as (Y1 & Y2 & Y3 & Y4); exact (conj Y1 (conj Y2 (conj Y3 (Y4 _))))]. rewrite (bind_run _ _ _ _ _ _ _ (cut_edge_no h e p ltac:(rewrite Ef; cbn; lia))). reflexivity.
      + assert (Hf : In f (g_faces h)) by (apply (t_edge_faces h T e He); rewrite Ef; left; auto).
        assert (Hg : In g (g_faces h)) by (apply (t_edge_faces h T e He); rewrite Ef; right; left; auto).
        destruct (cut_edge_any h e f g p n1 n2 Co He Ef En Hp (pair_corners h f g Nd Hf Hg)) as
          (z & h' & n3 & n4 & n & e15 & e25 & e35 & e45 & g1 & g2 & g3 & g4 & H3 & X1 & X2 & H4 & X3 & X4 & D34 & E & Ez & R).
        exists h'. split; [rewrite (bind_run _ _ _ _ _ _ _ E); reflexivity|]. pose proof (proj1 (proj1 R)) as T'.
        assert (X : forall m, In m [n1; n2; n3; n4] -> m <> n).
        { intros m Hm. eapply old_new; [apply R|left; reflexivity|]. destruct Hm as [<-|[<-|[<-|[<-|[]]]]].
          - apply (t_edge_nodes h T e He). rewrite En. cbn; auto.
          - apply (t_edge_nodes h T e He). rewrite En. cbn; auto.
          - apply (t_face_nodes h T f Hf). auto.
          - apply (t_face_nodes h T g Hg). auto. }
        pose proof (X n1 ltac:(cbn; auto)). pose proof (X n2 ltac:(cbn; auto)). pose proof (X n3 ltac:(cbn; auto)).
        pose proof (X n4 ltac:(cbn; auto)).
        destruct (patch_step _ _ _ _ Co Nd R) as (Y1 & Y2 & Y3); [made_edge|made_differ|discriminate|].
        split; [exact Y1|]. split; [exact Y2|]. split; [exact Y3|]. intros [Zl|[]] Zo. apply R; [exact Zl|]. apply (one_of_two h z f g Ez). apply Zo; rewrite Ef; cbn; auto.
    - (* cut_edge_with_two_nodes *)
      destruct Al as (He & Hp & Hq & Hpq). destruct (ends_of h e T He) as (n1 & n2 & En & D12).
      destruct (faces_of h e T He) as [(f & Ef)|(f & g & Ef & Dfg)].
      + assert (Hf : In f (g_faces h)) by (apply (t_edge_faces h T e He); rewrite Ef; left; auto).
        destruct (cut_border_two_any h e f p q n1 n2 Co He Ef En Hp Hq Hpq) as
          (z & h' & n3 & n4 & n5 & e14 & e25 & e45 & e34 & e35 & f1 & f2 & f3 & H3 & X1 & X2 & E & Ez & R).
        exists h'. split; [rewrite (bind_run _ _ _ _ _ _ _ E); reflexivity|]. pose proof (proj1 (proj1 R)) as T'.
        pose proof (new_new _ _ _ _ n4 n5 T' (proj1 (proj2 (proj2 R))) eq_refl) as D45.
        assert (Xo : forall m, In m [n1; n2; n3] -> In m (g_nodes h)).
        { intros m Hm. destruct Hm as [<-|[<-|[<-|[]]]].
          - apply (t_edge_nodes h T e He). rewrite En. cbn; auto.
          - apply (t_edge_nodes h T e He). rewrite En. cbn; auto.
          - apply (t_face_nodes h T f Hf). auto. }
        assert (X : forall m, In m [n1; n2; n3] -> m <> n4).
        { intros m Hm. eapply old_new; [apply R|left; reflexivity|auto]. }
        assert (Y : forall m, In m [n1; n2; n3] -> m <> n5).
        { intros m Hm. eapply old_new; [apply R|right; left; reflexivity|auto]. }
        pose proof (X n1 ltac:(cbn; auto)). pose proof (X n2 ltac:(cbn; auto)). pose proof (X n3 ltac:(cbn; auto)).
        pose proof (Y n1 ltac:(cbn; auto)). pose proof (Y n2 ltac:(cbn; auto)). pose proof (Y n3 ltac:(cbn; auto)).
        destruct (patch_step _ _ _ _ Co Nd R) as (Y1 & Y2 & Y3); [made_edge|made_differ|discriminate|].
        split; [exact Y1|]. split; [exact Y2|]. split; [exact Y3|]. intros [Zl|[]] Zo. apply R; [exact Zl|]. intros x [<-|[]]. exact Ez.
      + assert (Hf : In f (g_faces h)) by (apply (t_edge_faces h T e He); rewrite Ef; left; auto).
        assert (Hg : In g (g_faces h)) by (apply (t_edge_faces h T e He); rewrite Ef; right; left; auto).
        destruct (cut_inner_two_any h e f g p q n1 n2 Co He Ef En Hp Hq Hpq (pair_corners h f g Nd Hf Hg)) as
          (z & h' & n3 & n6 & n4 & n5 & e14 & e25 & e45 & e34 & e35 & e46 & e56 & g1 & g2 & g3 & g4 & g5 & g6 &
           H3 & X1 & X2 & H4 & X3 & X4 & D36 & E & Ez & R).
        exists h'. split; [rewrite (bind_run _ _ _ _ _ _ _ E); reflexivity|]. pose proof (proj1 (proj1 R)) as T'.
        pose proof (new_new _ _ _ _ n4 n5 T' (proj1 (proj2 (proj2 R))) eq_refl) as D45.
        assert (Xo : forall m, In m [n1; n2; n3; n6] -> In m (g_nodes h)).
        { intros m Hm. destruct Hm as [<-|[<-|[<-|[<-|[]]]]].
          - apply (t_edge_nodes h T e He). rewrite En. cbn; auto.
          - apply (t_edge_nodes h T e He). rewrite En. cbn; auto.
          - apply (t_face_nodes h T f Hf). auto.
          - apply (t_face_nodes h T g Hg). auto. }
        assert (X : forall m, In m [n1; n2; n3; n6] -> m <> n4).
        { intros m Hm. eapply old_new; [apply R|left; reflexivity|auto]. }
        assert (Y : forall m, In m [n1; n2; n3; n6] -> m <> n5).
        { intros m Hm. eapply old_new; [apply R|right; left; reflexivity|auto]. }
        pose proof (X n1 ltac:(cbn; auto)). pose proof (X n2 ltac:(cbn; auto)). pose proof (X n3 ltac:(cbn; auto)).
        pose proof (X n6 ltac:(cbn; auto)). pose proof (Y n6 ltac:(cbn; auto)).
        pose proof (Y n1 ltac:(cbn; auto)). pose proof (Y n2 ltac:(cbn; auto)). pose proof (Y n3 ltac:(cbn; auto)).
        destruct (patch_step _ _ _ _ Co Nd R) as (Y1 & Y2 & Y3); [made_edge|made_differ|discriminate|].
        split; [exact Y1|]. split; [exact Y2|]. split; [exact Y3|]. intros [Zl|[]] Zo. apply R; [exact Zl|]. apply (one_of_two h z f g Ez). apply Zo; rewrite Ef; cbn; auto.
    - (* collapse_face *)
      destruct Al as (Hf & Hz). destruct (max_edge_run h f T Hf) as (e & Mx & Ie).
      assert (He : In e (g_edges h)) by (apply (t_face_edges h T f Hf); auto).
      destruct (ends_of h e T He) as (n1 & n2 & En & D12). pose proof (Hz e Ie) as Z2.
      assert (Fe : In f (e_faces h e)) by (apply (t_ef h T); auto).
      assert (Two : (exists g, Permutation (e_faces h e) [f; g] /\ f <> g) \/ length (e_faces h e) <> 2).
      { destruct (faces_of h e T He) as [(g & Ef)|(g & k & Ef & D)]; [right; rewrite Ef; cbn; lia|left].
        rewrite Ef in *. destruct Fe as [<-|[<-|[]]]; [exists k|exists g]; split; auto. constructor. }
      destruct Two as [(g & Ef & Dfg)|L].
      + assert (Ge : In g (e_faces h e)) by (apply (Permutation_in _ (Permutation_sym Ef)); cbn; auto).
        assert (Hg : In g (g_faces h)) by (apply (t_edge_faces h T e He); auto).
        destruct (face_at h e f n1 n2 T ZO He Fe En) as (n3 & a1 & a2 & z1 & B1).
        destruct (face_at h e g n1 n2 T ZO He Ge En) as (n4 & b1 & b2 & z2 & B2).
        pose proof (bs_nd _ _ _ _ _ _ _ _ _ B1) as N1. apply NoDup3 in N1 as (_ & D13 & D23).
        pose proof (bs_nd _ _ _ _ _ _ _ _ _ B2) as N2. apply NoDup3 in N2 as (_ & D14 & D24).
        pose proof (bs_fn _ _ _ _ _ _ _ _ _ B1) as P1. pose proof (bs_fn _ _ _ _ _ _ _ _ _ B2) as P2.
        assert (I3 : In n3 (f_nodes h f)) by (apply (Permutation_in _ (Permutation_sym P1)); cbn; auto).
        assert (I4 : In n4 (f_nodes h g)) by (apply (Permutation_in _ (Permutation_sym P2)); cbn; auto).
        assert (D34 : n3 <> n4).
        { intros ->. apply Dfg. apply Nd; auto. intros x Hx. apply (Permutation_in _ (Permutation_sym P2)).
          exact (Permutation_in _ P1 Hx). }
        destruct (collapse_face_any h f e g n1 n2 n3 n4 Co Hf Mx Ef En I3) as (z & h' & d & g1 & g2 & E & Ez & R); auto.
        { intros d Hd. apply (Z2 f g n3 n4 d); auto; rewrite En; cbn; intuition congruence. }
        exists h'. split; [rewrite (bind_run _ _ _ _ _ _ _ E); reflexivity|]. pose proof (proj1 (proj1 R)) as T'.
        destruct (patch_step _ _ _ _ Co Nd R) as (Y1 & Y2 & Y3); [made_edge|made_differ|discriminate|].
        split; [exact Y1|]. split; [exact Y2|]. split; [exact Y3|]. intros [Zl|[]] Zo. apply R; [exact Zl|]. apply (one_of_two h z f g Ez). apply (Zo e Ie); auto.
      + exists h. split; [|destruct (refuse_step h Co Nd) as (Y1 & Y2 & Y3 & Y4); exact (conj Y1 (conj Y2 (conj Y3 (Y4 _))))]. rewrite (bind_run _ _ _ _ _ _ _ (collapse_face_no h f e Mx L)). reflexivity.
    - (* collapse_edge *)
      destruct Al.
    - (* mark_all_fixed_nodes *)
      destruct (mark_all_ok h) as (h' & b & l & E & Eh & _). exists h'. split; auto. subst h'. split; [|split; [exact Nd|split; [|intros [K|[]] _; auto]]].
      + split; [destruct T; constructor; cbn; auto|]. split; [destruct ZO; constructor; cbn; auto|]. auto.
      + constructor; auto. intros x Hx. exists x. auto.
  Qed.

  Theorem collapse_ok : forall h e, consistent h -> no_double_faces h -> allowed h (ACollapse e) ->
    exists h', perform (ACollapse e) h = (Ok tt, h') /\ consistent h' /\ no_double_faces h' /\ carried [None] h h'.
  Proof.
    intros h e Co Nd Al. cbn [perform allowed] in *. pose proof Co as (T & _).
      destruct Al as [He Al]. destruct (faces_of h e T He) as [(f & Ef)|(f1 & f2 & Ef & _)].
      + exists h. split; [|split; [auto|split; [auto|apply same_data]]]. rewrite (bind_run _ _ _ _ _ _ _ (collapse_edge_no h e ltac:(rewrite Ef; discriminate))). reflexivity.
      + destruct (Al f1 f2 Ef) as (Bn & n1 & n2 & n3 & n4 & e1 & e2 & ln & le & lf & En & A1 & A2 & A3 & A4 & A5 & A6 & Ct & K1 & K2 & K3 & K4 & X1 & X2 & X3 & X4 & X5 & X6).
        destruct (collapse_main h e f1 f2 n1 n2 n3 n4 Co Nd Bn He Ef En A1 A2 A3 A4 A5 A6 Ct)
          as (h' & d1 & d2 & Y1 & Y2 & Y3 & Y4 & Run & Cc & T' & ZO' & ZL' & Me' & Nd' & _ & Nn).
        assert (d1 = e1).
        { apply (t_uniq h T); auto. intros x Hx. apply (Permutation_in _ (Permutation_sym K2)), (Permutation_in _ Y2), Hx. }
        assert (d2 = e2).
        { apply (t_uniq h T); auto. intros x Hx. apply (Permutation_in _ (Permutation_sym K4)), (Permutation_in _ Y4), Hx. }
        subst d1 d2. exists h'. split; [rewrite (bind_run _ _ _ _ _ _ _ Run); reflexivity|]. split; [|split; [exact Nd'|]].
        2:{ constructor.
            2:{ intros x Hx. exists x. split; [|apply (ct_data _ _ _ _ _ _ _ _ _ Cc)]. apply (DecompProofs.sublist_In _ _ _ _ _ (ct_faces _ _ _ _ _ _ _ _ _ Cc)) in Hx. tauto. }
            - intros _ E. destruct (co_third _ _ _ _ _ _ _ Ct) as (g & Hg & G1 & G2 & _).
              assert (In g (g_faces h')) as K; [|rewrite E in K; destruct K].
              apply (DecompProofs.sublist_In _ _ _ _ _ (ct_faces _ _ _ _ _ _ _ _ _ Cc)). split; [auto|]. cbn. intuition.
            - intros _ [P1 P2]. destruct (ct_zones _ _ _ _ _ _ _ _ _ Cc) as (Z1 & Z2 & _). destruct (ct_rest _ _ _ _ _ _ _ _ _ Cc) as [R1 _].
              split; [rewrite R1; auto|]. intros z. rewrite Z1, Z2. auto. }
        rewrite (sublist_unique _ _ _ _ _ X1 (ct_nodes _ _ _ _ _ _ _ _ _ Cc)) in X2.
        rewrite (sublist_unique _ _ _ _ _ X3 (ct_edges _ _ _ _ _ _ _ _ _ Cc)) in X4.
        rewrite (sublist_unique _ _ _ _ _ X5 (ct_faces _ _ _ _ _ _ _ _ _ Cc)) in X6.
        unfold consistent. tauto.
  Qed.

  Lemma allowed_split : forall h a, allowed h a -> (exists e, a = ACollapse e) \/ allowed_any h a /\ in_one_zone h a.
  Proof.
    intros h a Al. destruct a; cbn [allowed allowed_any in_one_zone] in *; try (right; tauto).
    - right. destruct Al as [H K]. split; [split; [auto|]|]; intros e He; apply (K e He).
    - left. eexists. reflexivity.
  Qed.

  Theorem act_full : forall h a, consistent h -> no_double_faces h -> allowed h a ->
    exists h', perform a h = (Ok tt, h') /\ consistent h' /\ no_double_faces h' /\ carried [new_name a] h h'.
  Proof.
    intros h a Co Nd Al. destruct (allowed_split h a Al) as [(e & ->)|[A1 A2]].
    - apply collapse_ok; auto.
    - destruct (act_any h a (consistent_sound h Co) Nd A1) as (h' & E & S' & N' & D & L).
      exists h'. split; [auto|]. split; [|auto]. apply sound_consistent; auto. apply L; auto. left. apply Co.
  Qed.

  Theorem act_ok : forall h a, consistent h -> no_double_faces h -> allowed h a ->
    exists h', perform a h = (Ok tt, h') /\ consistent h' /\ no_double_faces h'.
  Proof. intros h a Co Nd Al. destruct (act_full h a Co Nd Al) as (h' & E & C' & N' & _). exists h'. auto. Qed.

  Theorem acts_any : forall l h, sound h -> no_double_faces h -> all_allowed_any h l ->
    exists h', perform_all l h = (Ok tt, h') /\ sound h' /\ no_double_faces h' /\ carried (map new_name l) h h'.
  Proof.
    induction l as [|a l IH]; intros h Co Nd Al; cbn [perform_all all_allowed_any] in *.
    - exists h. pose proof (same_data [] h). auto.
    - destruct Al as [A1 A2]. destruct (act_any h a Co Nd A1) as (h1 & E1 & C1 & N1 & D1 & _).
      destruct (IH h1 C1 N1 (A2 h1 E1)) as (h2 & E2 & C2 & N2 & D2).
      exists h2. rewrite (bind_run _ _ _ _ _ _ _ E1). split; [auto|]. split; [auto|]. split; [auto|].
      exact (carried_app [new_name a] _ _ _ _ D1 D2).
  Qed.

  Theorem acts_full : forall l h, consistent h -> no_double_faces h -> all_allowed h l ->
    exists h', perform_all l h = (Ok tt, h') /\ consistent h' /\ no_double_faces h' /\ carried (map new_name l) h h'.
  Proof.
    induction l as [|a l IH]; intros h Co Nd Al; cbn [perform_all all_allowed] in *.
    - exists h. pose proof (same_data [] h). auto.
    - destruct Al as [A1 A2]. destruct (act_full h a Co Nd A1) as (h1 & E1 & C1 & N1 & D1).
      destruct (IH h1 C1 N1 (A2 h1 E1)) as (h2 & E2 & C2 & N2 & D2).
      exists h2. rewrite (bind_run _ _ _ _ _ _ _ E1). split; [auto|]. split; [auto|]. split; [auto|].
      exact (carried_app [new_name a] _ _ _ _ D1 D2).
  Qed.

  Theorem acts_ok : forall l h, consistent h -> no_double_faces h -> all_allowed h l ->
    exists h', perform_all l h = (Ok tt, h') /\ consistent h' /\ no_double_faces h'.
  Proof. intros l h Co Nd Al. destruct (acts_full l h Co Nd Al) as (h' & E & C' & N' & _). exists h'. auto. Qed.

  Theorem acts_collapse : forall e l h, consistent h -> no_double_faces h -> all_allowed h (ACollapse e :: l) ->
    exists h1 b h2, collapse_edge e h = (Ok b, h1) /\ consistent h1 /\ no_double_faces h1 /\
      perform_all l h1 = (Ok tt, h2) /\ consistent h2 /\ no_double_faces h2.
  Proof.
    intros e l h Co Nd [A1 A2]. destruct (act_ok h (ACollapse e) Co Nd A1) as (h1 & E1 & C1 & N1).
    destruct (acts_ok l h1 C1 N1 (A2 h1 E1)) as (h2 & E2 & C2 & N2).
    cbn [perform] in E1. unfold bind in E1. destruct (collapse_edge e h) as [[b|x] h3] eqn:E.
    - unfold ret in E1. apply (f_equal snd) in E1. cbn in E1. subst h3. exists h1, b, h2. auto 10.
    - exfalso. apply (f_equal fst) in E1. cbn in E1. discriminate E1.
  Qed.
End Seq.
