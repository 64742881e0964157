(** Proofs about Grid.load: what the loaded grid looks like, and when a file is
    accepted. *)

From Coq Require Import ZArith NArith Ascii String Bool Lia List Permutation.
From Verif Require Import Py PyLemmas Heap HeapLemmas GridModel GridSpec DecompProofs GridIO FileSpec
  Frames LoadParse LoadPlace LoadEdges.
Import ListNotations.
Open Scope list_scope.
Open Scope nat_scope.

Section Main.
  Context {F : FloatOps}.
  #[local] Strategy expand [build_zone build_event link_face_edges link_nodes_and_edges_to_zones load_loop for_each clear].

  (* ---------------------------------------------------------------- *)
  (** ** The text *)

  Lemma clear_run : forall h, exists h1, clear h = (Ok tt, h1) /\
    g_nodes h1 = [] /\ g_edges h1 = [] /\ g_faces h1 = [] /\ g_zones h1 = [] /\ g_bag h1 = [] /\
    g_name h1 = g_name h /\ g_nborder h1 = g_nborder h.
  Proof. intros h. eexists. split; [reflexivity|]. repeat split. Qed.

  Lemma placed_start : forall merge h, g_nodes h = [] -> g_edges h = [] -> g_faces h = [] ->
    g_zones h = [] -> g_bag h = [] -> placed merge [] h.
  Proof.
    intros merge h E1 E2 E3 E4 E5. exists []. split; [|split; [|split; [|split; [|split]]]].
    - constructor; rewrite ?E1, ?E5; cbn; try (intros; contradiction); try (constructor; fail).
      + intros [|i] n H; discriminate.
      + intros; tauto.
      + destruct merge; auto.
    - constructor; rewrite ?E1, ?E3; intros; contradiction.
    - constructor; rewrite ?E3, ?E4; cbn; try (intros; contradiction); try (constructor; fail); auto.
      intros [|i] n H; discriminate.
    - auto.
    - rewrite E4; auto.
    - intros [|i] z zr rp H; rewrite E4 in H; discriminate.
  Qed.

  Definition title_after (t : str) (evs : list event) : str :=
    match title_in evs with Some s => s | None => t end.

  Lemma title_fold : forall evs o,
    fold_left (fun t e => match e with ETitle s => Some s | EZone _ => t end) evs o =
    match title_in evs with Some s => Some s | None => o end.
  Proof.
    unfold title_in. induction evs as [|[s|z] evs IH]; intros o; auto.
    - cbn [fold_left]. rewrite (IH (Some s)). destruct (fold_left _ evs None); auto.
    - cbn [fold_left]. apply IH.
  Qed.

  Lemma title_cons : forall t e evs,
    title_after t (e :: evs) = title_after (match e with ETitle s => s | EZone _ => t end) evs.
  Proof.
    intros t e evs. unfold title_after, title_in at 1. cbn [fold_left].
    rewrite title_fold. destruct (title_in evs), e; auto.
  Qed.

  Lemma build_title_run : forall merge s h, exists h1, build_event merge (ETitle s) h = (Ok tt, h1) /\
    g_name h1 = s /\ g_nborder h1 = g_nborder h /\ forall zs, placed merge zs h -> placed merge zs h1.
  Proof.
    intros merge s h. exists (set_g_name h s). split; [reflexivity|]. split; [reflexivity|]. split; [reflexivity|].
    intros zs (reps & H1 & H2 & H3 & H4 & H5 & H6). exists reps.
    split; [destruct H1; constructor; auto|]. split; [destruct H2; constructor; auto|].
    split; [destruct H3; constructor; auto|]. split; [auto|]. split; auto.
  Qed.

  Lemma build_events_ok : forall merge evs zs h, placed merge zs h ->
    (forall zr, In zr (zones_of evs) -> zone_rec_ok zr) ->
    exists h', for_each evs (build_event merge) h = (Ok tt, h') /\ placed merge (zs ++ zones_of evs) h' /\
      g_name h' = title_after (g_name h) evs /\ g_nborder h' = g_nborder h.
  Proof.
    induction evs as [|e evs IH]; intros zs h Hp Hz.
    - exists h. split; [reflexivity|]. unfold zones_of. cbn [flat_map]. rewrite app_nil_r. auto.
    - destruct e as [s|zr].
      + destruct (build_title_run merge s h) as (h1 & E1 & A1 & A2 & A3).
        destruct (IH zs h1 (A3 zs Hp)) as (h2 & E2 & B1 & B2 & B3); [exact Hz|].
        exists h2. cbn [for_each]. rewrite (bind_run _ _ _ _ _ _ _ E1). split; [auto|].
        split; [exact B1|]. rewrite title_cons. split; congruence.
      + destruct (build_zone_ok merge zs zr h Hp) as (h1 & E1 & A1 & A2 & A3).
        { apply Hz. left; auto. }
        destruct (IH (zs ++ [zr]) h1 A1) as (h2 & E2 & B1 & B2 & B3); [intros; apply Hz; right; auto|].
        exists h2. cbn [for_each build_event]. rewrite (bind_run _ _ _ _ _ _ _ E1). split; [auto|].
        change (zones_of (EZone zr :: evs)) with (zr :: zones_of evs).
        rewrite <- app_assoc in B1. split; [exact B1|]. rewrite title_cons. split; congruence.
  Qed.

  (* ---------------------------------------------------------------- *)
  (** ** From the placed zones to the edges *)

  Fixpoint label (reps : list (list nat)) (n : nat) : nat :=
    match reps with
    | [] => 0
    | r :: rs => if in_dec Nat.eq_dec n r then 0 else S (label rs n)
    end.

  Lemma label_at : forall reps i rp n, NoDup (concat reps) -> nth_error reps i = Some rp -> In n rp ->
    label reps n = i.
  Proof.
    induction reps as [|r reps IH]; intros [|i] rp n N E Hn; try discriminate; cbn [label concat] in *.
    - injection E as ->. destruct (in_dec Nat.eq_dec n rp); [auto|contradiction].
    - apply NoDup_app_inv in N as (_ & N2 & D). destruct (in_dec Nat.eq_dec n r) as [K|K].
      + exfalso. apply (D n K). apply in_concat. exists rp. split; auto. eapply nth_error_In; eauto.
      + f_equal. eapply IH; eauto.
  Qed.

  Lemma NoDup_map_inj : forall A B (g : A -> B) l x y, NoDup (map g l) -> In x l -> In y l -> g x = g y -> x = y.
  Proof.
    intros A B g l x y N Hx Hy E. induction l as [|u l IH]; [destruct Hx|]. cbn in N. inv N.
    destruct Hx as [->|Hx], Hy as [->|Hy]; auto.
    - exfalso. apply H1. rewrite E. apply in_map; auto.
    - exfalso. apply H1. rewrite <- E. apply in_map; auto.
  Qed.

  (** The condition under which edges are recognised by the positions of their ends. *)
  Definition separate (merge : bool) (zs : list zone_rec) : Prop :=
    merge = true \/ forall zr, In zr zs -> NoDup (map rnd (zr_pts zr)).

  Lemma zone_at : forall merge zs h f, placed merge zs h -> In f (g_faces h) ->
    exists i z zr k, nth_error (g_zones h) i = Some z /\ nth_error zs i = Some zr /\
      nth_error (z_faces h z) k = Some f.
  Proof.
    intros merge zs h f (reps & Hr & Hi & Hf & L1 & L2 & Hp) H. rewrite (fr_concat _ Hf) in H.
    apply in_flat_map in H as (z & Hz & H). apply In_nth_error in Hz as (i & Hz).
    apply In_nth_error in H as (k & H).
    destruct (nth_error zs i) as [zr|] eqn:E.
    - exists i, z, zr, k. auto.
    - apply nth_error_None in E. assert (i < length (g_zones h)) by (apply nth_error_Some; congruence). lia.
  Qed.

  Lemma placed_face : forall merge zs h reps i z zr k f,
    nth_error (g_zones h) i = Some z -> nth_error zs i = Some zr -> length reps = length zs ->
    (forall i z zr rp, nth_error (g_zones h) i = Some z -> nth_error zs i = Some zr ->
        nth_error reps i = Some rp -> zone_placed h z zr rp) ->
    nth_error (z_faces h z) k = Some f -> nodes_read merge (all_pts zs) (concat reps) h ->
    exists rp, nth_error reps i = Some rp /\ length (f_nodes h f) = 3 /\ incl (f_nodes h f) (g_nodes h) /\
      incl (f_nodes h f) rp.
  Proof.
    intros merge zs h reps i z zr k f Hz Hzr L Hp Hk Hr.
    destruct (nth_error reps i) as [rp|] eqn:E.
    2:{ apply nth_error_None in E. assert (i < length zs) by (apply nth_error_Some; congruence). lia. }
    destruct (Hp i z zr rp Hz Hzr E) as (_ & H2 & _ & H4).
    destruct (H4 k f Hk) as (_ & row & a & b & c & na & nb & nc & _ & _ & _ & G1 & G2 & G3 & G4).
    exists rp. rewrite G4. split; [auto|]. split; [auto|].
    assert (G : incl [na; nb; nc] rp).
    { intros x [<-|[<-|[<-|[]]]]; eapply nth_error_In; eauto. }
    split; auto. intros x Hx. apply G in Hx. apply In_nth_error in Hx as (j & Hx).
    destruct (Forall2_nth_l _ _ _ _ _ H2 j x Hx) as (p & _ & _ & K). auto.
  Qed.

  Lemma placed_ready : forall merge zs h, placed merge zs h -> separate merge zs -> exists comp, ready comp h.
  Proof.
    intros merge zs h Hpl Sp. pose proof Hpl as (reps & Hr & Hi & Hf & L1 & L2 & Hp).
    assert (Hn : forall f, In f (g_faces h) -> length (f_nodes h f) = 3 /\ incl (f_nodes h f) (g_nodes h)).
    { intros f H. destruct (zone_at _ _ _ f Hpl H) as (i & z & zr & k & H1 & H2 & H3).
      destruct (placed_face merge zs h reps i z zr k f H1 H2 L1 Hp H3 Hr) as (rp & _ & K1 & K2 & _). auto. }
    assert (Rest : forall comp, sep comp h ->
      (forall f a b, In f (g_faces h) -> In a (f_nodes h f) -> In b (f_nodes h f) -> comp a = comp b) -> ready comp h).
    { intros comp Q1 Q2. constructor; auto.
      - apply (fr_nd _ Hf).
      - apply (fr_ge _ Hf).
      - apply (nr_edges _ _ _ _ Hr).
      - apply (fr_edges _ Hf). }
    destruct Sp as [->|Sp].
    - exists (fun _ => 0). apply Rest; auto. intros n m H1 H2 _ E.
      apply (NoDup_map_inj _ _ (n_rc h) (g_nodes h)); auto. apply (nr_merge _ _ _ _ Hr); auto.
    - destruct merge.
      { exists (fun _ => 0). apply Rest; auto. intros n m H1 H2 _ E.
        apply (NoDup_map_inj _ _ (n_rc h) (g_nodes h)); auto. apply (nr_merge _ _ _ _ Hr); auto. }
      pose proof (nr_same _ _ _ _ Hr eq_refl) as Es. pose proof (nr_nd _ _ _ _ Hr) as Nn. rewrite <- Es in Nn.
      exists (label reps). apply Rest.
      + intros n m H1 H2 El Er. rewrite <- Es in H1, H2.
        apply in_concat in H1 as (r1 & Hr1 & H1). apply in_concat in H2 as (r2 & Hr2 & H2).
        apply In_nth_error in Hr1 as (i & Hr1). apply In_nth_error in Hr2 as (j & Hr2).
        rewrite (label_at _ _ _ _ Nn Hr1 H1), (label_at _ _ _ _ Nn Hr2 H2) in El. subst j.
        rewrite Hr1 in Hr2. injection Hr2 as <-.
        assert (Li : i < length reps) by (apply nth_error_Some; congruence).
        destruct (nth_error (g_zones h) i) as [z|] eqn:Ez; [|apply nth_error_None in Ez; lia].
        destruct (nth_error zs i) as [zr|] eqn:Ezr; [|apply nth_error_None in Ezr; lia].
        destruct (Hp i z zr r1 Ez Ezr Hr1) as (_ & G & _).
        assert (Em : map (n_rc h) r1 = map rnd (zr_pts zr)).
        { clear - G. induction G as [|p n l l' [E _] _ IH]; cbn; congruence. }
        apply (NoDup_map_inj _ _ (n_rc h) r1); auto. rewrite Em. apply Sp. eapply nth_error_In; eauto.
      + intros f a b H Ha Hb. destruct (zone_at _ _ _ f Hpl H) as (i & z & zr & k & H1 & H2 & H3).
        destruct (placed_face false zs h reps i z zr k f H1 H2 L1 Hp H3 Hr) as (rp & E & _ & _ & K).
        rewrite (label_at _ _ _ _ Nn E (K a Ha)), (label_at _ _ _ _ Nn E (K b Hb)). auto.
  Qed.

  (* ---------------------------------------------------------------- *)
  (** ** Faces of the file and faces of the grid *)

  Lemma map_nth_ext : forall A B C (f : A -> C) (g : B -> C) l l', length l = length l' ->
    (forall i x y, nth_error l i = Some x -> nth_error l' i = Some y -> f x = g y) -> map f l = map g l'.
  Proof.
    induction l as [|x l IH]; intros [|y l'] L H; try discriminate; auto. cbn. f_equal.
    - apply (H 0); auto.
    - apply IH; [auto|]. intros i u v Hu Hv. apply (H (S i)); auto.
  Qed.

  Lemma placed_holds : forall merge zs h, placed merge zs h -> holds_zones zs h.
  Proof.
    intros merge zs h (reps & Hr & Hi & Hf & L1 & L2 & Hp).
    split; [auto|]. split; [apply (fr_concat _ Hf)|].
    intros i z zr Hz Hzr. destruct (nth_error reps i) as [rp|] eqn:E.
    2:{ apply nth_error_None in E. assert (i < length zs) by (apply nth_error_Some; congruence). lia. }
    destruct (Hp i z zr rp Hz Hzr E) as (G1 & G2 & G3 & G4). split; [auto|]. split; [auto|].
    intros k f Hk. destruct (G4 k f Hk) as (K1 & row & a & b & c & na & nb & nc & K2 & K3 & K4 & K5 & K6 & K7 & K8).
    split; [auto|]. exists row, (a, b, c). split; [auto|]. split; [auto|]. split; [auto|].
    rewrite K8. unfold corners.
    assert (G : forall u nu, nth_error rp u = Some nu ->
      exists p, nth_error (zr_pts zr) u = Some p /\ n_rc h nu = rnd p).
    { intros u nu Hu. destruct (Forall2_nth_l _ _ _ _ _ G2 u nu Hu) as (p & Q1 & Q2 & _). exists p. auto. }
    constructor; [|constructor; [|constructor; [|constructor]]]; auto.
  Qed.

  Lemma holds_faces : forall zs h, holds_zones zs h ->
    map (fun f => map (n_rc h) (f_nodes h f)) (g_faces h) = file_faces zs.
  Proof.
    intros zs h (L & Eg & H). rewrite Eg. unfold file_faces. rewrite !flat_map_concat_map, concat_map, map_map.
    f_equal. apply map_nth_ext; auto. intros i z zr Hz Hzr. destruct (H i z zr Hz Hzr) as (_ & L2 & G).
    apply map_nth_ext; auto. intros k f t Hk Ht. destruct (G k f Hk) as (_ & row & t' & _ & K1 & _ & K2).
    rewrite Ht in K1. injection K1 as <-. clear - K2.
    induction K2 as [|o n l l' (p & -> & E) _ IH]; cbn; [auto|]. rewrite IH, E. auto.
  Qed.

  Lemma no_degenerate_nd : forall zs h, holds_zones zs h -> no_degenerate zs -> nd_faces h.
  Proof.
    intros zs h Hz Hd f Hf. apply (NoDup_map_inv (n_rc h)). apply Hd. rewrite <- (holds_faces zs h Hz).
    apply in_map_iff. exists f. auto.
  Qed.

  Lemma three_nodes_share : forall comp zs h, holds_zones zs h -> ready comp h -> three_nodes h -> three_share zs.
  Proof.
    intros comp zs h Hz R (f1 & f2 & f3 & a & b & H1 & H2 & H3 & D1 & D2 & D3 & Hab & [A1 B1] & [A2 B2] & [A3 B3]).
    pose proof (holds_faces zs h Hz) as Eff.
    assert (Hpq : n_rc h a <> n_rc h b).
    { intros E. apply Hab. apply (rd_sep _ _ R); auto.
      - apply (rd_nodes _ _ R f1); auto.
      - apply (rd_nodes _ _ R f1); auto.
      - apply (rd_comp _ _ R f1); auto. }
    assert (G : forall f, In f (g_faces h) -> In a (f_nodes h f) -> In b (f_nodes h f) -> exists i t,
      nth_error (g_faces h) i = Some f /\ nth_error (file_faces zs) i = Some t /\ In (n_rc h a) t /\ In (n_rc h b) t).
    { intros f Hf Ha Hb. apply In_nth_error in Hf as (i & Hi). exists i, (map (n_rc h) (f_nodes h f)).
      split; [auto|]. split; [|split; apply in_map; auto]. rewrite <- Eff.
      rewrite nth_error_map, Hi. reflexivity. }
    destruct (G f1 H1 A1 B1) as (i1 & t1 & X1 & Y1 & Z1). destruct (G f2 H2 A2 B2) as (i2 & t2 & X2 & Y2 & Z2).
    destruct (G f3 H3 A3 B3) as (i3 & t3 & X3 & Y3 & Z3).
    assert (i1 <> i2) by congruence. assert (i1 <> i3) by congruence. assert (i2 <> i3) by congruence.
    assert (O : forall u v w tu tv tw, u < v -> v < w ->
      nth_error (file_faces zs) u = Some tu -> nth_error (file_faces zs) v = Some tv ->
      nth_error (file_faces zs) w = Some tw ->
      In (n_rc h a) tu /\ In (n_rc h b) tu -> In (n_rc h a) tv /\ In (n_rc h b) tv ->
      In (n_rc h a) tw /\ In (n_rc h b) tw -> three_share zs).
    { intros u v w tu tv tw L1 L2 Q1 Q2 Q3 Q4 Q5 Q6.
      exists u, v, w, tu, tv, tw, (n_rc h a), (n_rc h b). tauto. }
    destruct (Nat.lt_ge_cases i1 i2), (Nat.lt_ge_cases i1 i3), (Nat.lt_ge_cases i2 i3).
    - apply (O i1 i2 i3 t1 t2 t3); auto.
    - apply (O i1 i3 i2 t1 t3 t2); auto; lia.
    - lia.
    - apply (O i3 i1 i2 t3 t1 t2); auto; lia.
    - apply (O i2 i1 i3 t2 t1 t3); auto; lia.
    - lia.
    - apply (O i2 i3 i1 t2 t3 t1); auto; lia.
    - apply (O i3 i2 i1 t3 t2 t1); auto; lia.
  Qed.

  Lemma share_three_nodes : forall zs h, holds_zones zs h ->
    NoDup (map (n_rc h) (g_nodes h)) -> (forall f, In f (g_faces h) -> incl (f_nodes h f) (g_nodes h)) ->
    NoDup (g_faces h) -> three_share zs -> three_nodes h.
  Proof.
    intros zs h Hz Nr Hi Nf (i & j & k & ti & tj & tk & p & q & L1 & L2 & Hpq & E1 & E2 & E3 & [P1 Q1] & [P2 Q2] & [P3 Q3]).
    rewrite <- (holds_faces zs h Hz) in E1, E2, E3. rewrite nth_error_map in E1, E2, E3.
    destruct (nth_error (g_faces h) i) as [f1|] eqn:F1; [|discriminate].
    destruct (nth_error (g_faces h) j) as [f2|] eqn:F2; [|discriminate].
    destruct (nth_error (g_faces h) k) as [f3|] eqn:F3; [|discriminate].
    injection E1 as <-. injection E2 as <-. injection E3 as <-.
    assert (G : forall f r, In r (map (n_rc h) (f_nodes h f)) -> exists a, In a (f_nodes h f) /\ n_rc h a = r).
    { intros f r H. apply in_map_iff in H as (a & E & H). exists a. auto. }
    apply G in P1 as (a1 & P1 & Ea1). apply G in P2 as (a2 & P2 & Ea2). apply G in P3 as (a3 & P3 & Ea3).
    apply G in Q1 as (b1 & Q1 & Eb1). apply G in Q2 as (b2 & Q2 & Eb2). apply G in Q3 as (b3 & Q3 & Eb3).
    pose proof (nth_error_In _ _ F1) as I1. pose proof (nth_error_In _ _ F2) as I2. pose proof (nth_error_In _ _ F3) as I3.
    assert (J : forall x y, In x (g_nodes h) -> In y (g_nodes h) -> n_rc h x = n_rc h y -> x = y).
    { intros x y Hx Hy E. apply (NoDup_map_inj _ _ (n_rc h) (g_nodes h)); auto. }
    assert (a2 = a1) by (apply J; [apply (Hi f2)|apply (Hi f1)|]; auto; congruence).
    assert (a3 = a1) by (apply J; [apply (Hi f3)|apply (Hi f1)|]; auto; congruence).
    assert (b2 = b1) by (apply J; [apply (Hi f2)|apply (Hi f1)|]; auto; congruence).
    assert (b3 = b1) by (apply J; [apply (Hi f3)|apply (Hi f1)|]; auto; congruence).
    subst a2 a3 b2 b3.
    assert (D : forall u v x y, u < v -> nth_error (g_faces h) u = Some x -> nth_error (g_faces h) v = Some y -> x <> y).
    { intros u v x y L Hu Hv ->. assert (u = v); [|lia].
      apply (proj1 (NoDup_nth_error (g_faces h)) Nf); [apply nth_error_Some; congruence|congruence]. }
    exists f1, f2, f3, a1, b1. repeat (split; [auto; fail|]).
    split; [apply (D i j); auto|]. split; [apply (D i k); auto; lia|]. split; [apply (D j k); auto|].
    split; [congruence|]. auto.
  Qed.

  (* ---------------------------------------------------------------- *)
  (** ** The result *)

  Record loaded (merge : bool) (zs : list zone_rec) (h : heap) : Prop := {
    ld_nd : NoDup (g_nodes h);
    ld_pts : map (n_p h) (g_nodes h) = if merge then firsts (all_pts zs) else all_pts zs;
    ld_rc : forall n, In n (g_nodes h) -> n_rc h n = rnd (n_p h n);
    ld_bag : forall r, In r (g_bag h) <-> In r (map (n_rc h) (g_nodes h));
    ld_merge : merge = true -> NoDup (map (n_rc h) (g_nodes h));
    ld_num : numbered_in_order h;
    ld_zones : holds_zones zs h;
    ld_zok : zones_ok h;
    ld_incid : incid h;
    ld_two : forall e, In e (g_edges h) -> length (e_faces h e) <= 2;
    ld_lists : zone_lists_ok h
  }.

  Lemma placed_zones_ok : forall merge zs h, placed merge zs h -> zones_ok h.
  Proof.
    intros merge zs h Hpl. pose proof Hpl as (reps & Hr & Hi & Hf & L1 & L2 & Hp).
    pose proof (placed_holds _ _ _ Hpl) as (L & Eg & H).
    assert (G : forall z f, In z (g_zones h) -> In f (z_faces h z) -> f_zone h f = Some z).
    { intros z f Hz Hfz. apply In_nth_error in Hz as (i & Hz). apply In_nth_error in Hfz as (k & Hk).
      destruct (nth_error zs i) as [zr|] eqn:E.
      - destruct (H i z zr Hz E) as (_ & _ & K). destruct (K k f Hk) as [K1 _]. auto.
      - apply nth_error_None in E. assert (i < length (g_zones h)) by (apply nth_error_Some; congruence). lia. }
    constructor.
    - apply (fr_znd _ Hf).
    - apply (fr_zalloc _ Hf).
    - intros z Hz. pose proof (fr_nd _ Hf) as N. rewrite Eg in N. clear - Hz N.
      induction (g_zones h) as [|y l IH]; [destruct Hz|]. cbn in N. apply NoDup_app_inv in N as (N1 & N2 & _).
      destruct Hz as [->|Hz]; auto.
    - intros z f Hz. split.
      + intros K. split; [|auto]. rewrite Eg. apply in_flat_map. eauto.
      + intros [K1 K2]. rewrite Eg in K1. apply in_flat_map in K1 as (y & Hy & K1).
        pose proof (G y f Hy K1) as K3. assert (y = z) by congruence. subst. auto.
    - intros f K. rewrite Eg in K. apply in_flat_map in K as (y & Hy & K). exists y. auto.
  Qed.

  Lemma restE_zones : forall h h', restE h' = restE h ->
    n_glo h' = n_glo h /\ n_p h' = n_p h /\ g_bag h' = g_bag h /\ f_glo h' = f_glo h /\ f_data h' = f_data h /\
    f_zone h' = f_zone h /\ z_name h' = z_name h /\ z_faces h' = z_faces h /\ next_z h' = next_z h /\
    g_zones h' = g_zones h /\ g_name h' = g_name h /\ g_nborder h' = g_nborder h.
  Proof. intros h h' E. unfold restE in E. injection E. intros. repeat split; auto. Qed.

  Lemma frameL_more : forall h h', frameL h' = frameL h ->
    n_glo h' = n_glo h /\ n_p h' = n_p h /\ n_rc h' = n_rc h /\ g_bag h' = g_bag h /\ e_glo h' = e_glo h /\
    f_glo h' = f_glo h /\ f_data h' = f_data h /\ f_nodes h' = f_nodes h /\
    z_name h' = z_name h /\ z_faces h' = z_faces h /\ next_z h' = next_z h /\
    g_name h' = g_name h /\ g_nborder h' = g_nborder h.
  Proof. intros h h' E. unfold frameL, mesh in E. injection E. intros. repeat split; auto. Qed.

  (** The last two steps of load, after the zones have been read. *)
  Definition finish : M unit :=
    fs <- gets g_faces ;;
    for_each fs link_face_edges ;;;
    link_nodes_and_edges_to_zones.

  Lemma holds_zones_ext : forall zs h h', holds_zones zs h ->
    g_zones h' = g_zones h -> g_faces h' = g_faces h -> z_faces h' = z_faces h -> z_name h' = z_name h ->
    f_zone h' = f_zone h -> f_data h' = f_data h -> f_nodes h' = f_nodes h -> n_rc h' = n_rc h ->
    holds_zones zs h'.
  Proof. intros zs h h' H E1 E2 E3 E4 E5 E6 E7 E8. unfold holds_zones in *. rewrite E1, E2, E3, E4, E5, E6, E7, E8. auto. Qed.

  Lemma zones_ok_ext : forall h h', zones_ok h -> g_zones h' = g_zones h -> g_faces h' = g_faces h ->
    z_faces h' = z_faces h -> f_zone h' = f_zone h -> next_z h' = next_z h -> zones_ok h'.
  Proof. intros h h' [] E1 E2 E3 E4 E5. constructor; rewrite ?E1, ?E2, ?E3, ?E4, ?E5; auto. Qed.

  Lemma incid_ext : forall h h', incid h -> g_faces h' = g_faces h -> g_nodes h' = g_nodes h ->
    n_faces h' = n_faces h -> f_nodes h' = f_nodes h -> incid h'.
  Proof. intros h h' [] E1 E2 E3 E4. constructor; rewrite ?E1, ?E2, ?E3, ?E4; auto. Qed.

  (** What holds of the edges without any condition on the positions of the nodes. *)
  Record uinv (h : heap) : Prop := {
    u_alloc : forall e, In e (g_edges h) -> e < next_e h;
    u_glo : forall i e, nth_error (g_edges h) i = Some e -> e_glo h e = Z.of_nat i;
    u_two : forall e, In e (g_edges h) -> length (e_faces h e) <= 2;
    u_faces : forall e, In e (g_edges h) -> incl (e_faces h e) (g_faces h)
  }.

  Lemma uinv_step : forall f a b h h1, uinv h -> In f (g_faces h) ->
    complex_link f a b h = (Ok tt, h1) ->
    (forall e, find_edge h a b = Some e -> In e (g_edges h)) ->
    uinv h1 /\ restE h1 = restE h.
  Proof.
    intros f a b h h1 U Hf E He. destruct (find_edge h a b) as [e|] eqn:Ee.
    - specialize (He e eq_refl). destruct (Nat.eq_dec (length (e_faces h e)) 2) as [L|L].
      + rewrite (complex_link_full _ _ _ _ _ Ee L) in E. discriminate.
      + destruct (complex_link_found f a b h e Ee L) as (h2 & E2 & A1 & A2 & A3 & A4 & A5 & A6 & A7 & A8).
        rewrite E in E2. injection E2 as <-. split; auto.
        assert (Ef : g_faces h1 = g_faces h) by (unfold restE in A8; congruence).
        destruct U. constructor; rewrite ?A4, ?A6, ?A7, ?Ef; auto.
        * intros x Hx. rewrite A1. destruct (Nat.eqb_spec x e); auto. rewrite app_length. cbn.
          specialize (u_two0 e He). lia.
        * intros x Hx. rewrite A1. destruct (Nat.eqb_spec x e); auto. subst x.
          intros g Hg. apply in_app_iff in Hg as [Hg|[<-|[]]]; auto. apply (u_faces0 e); auto.
    - destruct (complex_link_new f a b h Ee) as (h2 & E2 & A1 & A2 & A3 & A4 & A5 & A6 & A7 & A8).
      rewrite E in E2. injection E2 as <-. split; auto.
      assert (Ef : g_faces h1 = g_faces h) by (unfold restE in A8; congruence).
      set (e := next_e h) in *.
      assert (Hne : forall x, In x (g_edges h) -> (x =? e) = false).
      { intros x Hx. apply Nat.eqb_neq. apply (u_alloc _ U) in Hx. unfold e. lia. }
      assert (Hcase : forall x, In x (g_edges h ++ [e]) -> (In x (g_edges h) /\ (x =? e) = false) \/ (x = e /\ (x =? e) = true)).
      { intros x Hx. apply in_app_iff in Hx as [Hx|[<-|[]]]; [left|right; split; auto; apply Nat.eqb_refl]. auto. }
      constructor; rewrite ?A6, ?A7, ?Ef.
      + intros x Hx. apply Hcase in Hx as [[Hx _]|[-> _]]; [apply (u_alloc _ U) in Hx|]; unfold e in *; lia.
      + intros i x Hx. rewrite A4. apply nth_error_snoc in Hx as [[_ Hx]|[-> ->]].
        * rewrite Hne by (eapply nth_error_In; eauto). apply (u_glo _ U); auto.
        * rewrite Nat.eqb_refl. auto.
      + intros x Hx. rewrite A1. apply Hcase in Hx as [[Hx ->]|[-> ->]]; [apply (u_two _ U); auto|cbn; lia].
      + intros x Hx. rewrite A1. apply Hcase in Hx as [[Hx ->]|[-> ->]]; [apply (u_faces _ U); auto|].
        intros y [<-|[]]; auto.
  Qed.

  (** The edges at the nodes of the grid are edges of the grid. *)
  Definition nedges_in (h : heap) : Prop := forall n, In n (g_nodes h) -> incl (n_edges h n) (g_edges h).

  Lemma nedges_step : forall f a b h h1, nedges_in h -> complex_link f a b h = (Ok tt, h1) -> nedges_in h1.
  Proof.
    intros f a b h h1 U E. unfold nedges_in. destruct (find_edge h a b) as [e|] eqn:Ee.
    - destruct (Nat.eq_dec (length (e_faces h e)) 2) as [L|L].
      + rewrite (complex_link_full _ _ _ _ _ Ee L) in E. discriminate.
      + destruct (complex_link_found f a b h e Ee L) as (h2 & E2 & A1 & A2 & A3 & A4 & A5 & A6 & A7 & A8).
        rewrite E in E2. injection E2 as <-. rewrite A3, A7.
        assert (Eg : g_nodes h1 = g_nodes h) by (unfold restE in A8; congruence). rewrite Eg. exact U.
    - destruct (complex_link_new f a b h Ee) as (h2 & E2 & A1 & A2 & A3 & A4 & A5 & A6 & A7 & A8).
      rewrite E in E2. injection E2 as <-.
      assert (Eg : g_nodes h1 = g_nodes h) by (unfold restE in A8; congruence). rewrite Eg, A7.
      intros n Hn x Hx. rewrite A3, !in_app_iff in Hx. apply in_app_iff. destruct Hx as [Hx|[Hx|Hx]].
      + left. apply (U n); auto.
      + right. destruct (n =? a); [auto|destruct Hx].
      + right. destruct (n =? b); [auto|destruct Hx].
  Qed.

  Lemma edges_any : forall h h',
    (forall f, In f (g_faces h) -> length (f_nodes h f) = 3 /\ incl (f_nodes h f) (g_nodes h)) ->
    g_edges h = [] -> (forall n, In n (g_nodes h) -> n_edges h n = []) ->
    for_each (g_faces h) link_face_edges h = (Ok tt, h') -> uinv h' /\ restE h' = restE h.
  Proof.
    intros h h' Hn He Hne E. rewrite link_faces_tasks in E by (intros f Hf; apply (Hn f Hf)).
    fold (all_tasks h) in E.
    assert (G : (uinv h' /\ nedges_in h') /\ restE h' = restE h); [|tauto].
    apply (for_each_inv _ _ _ (fun done x => (uinv x /\ nedges_in x) /\ restE x = restE h) _ _ E).
    - split; auto. split.
      + constructor; rewrite ?He; try (intros; contradiction). intros [|i] e K; discriminate.
      + intros n K. rewrite Hne by auto. intros x [].
    - intros done [[f a] b] rest h1 h2 El [[U N] Er] Hb. cbn [run_task] in Hb.
      destruct (restE_fields _ _ Er) as (E1 & E2 & E3 & E4 & _).
      assert (Hin : In (f, a, b) (all_tasks h)) by (rewrite El; apply in_app_iff; right; left; auto).
      unfold all_tasks in Hin. apply in_flat_map in Hin as (g & Hg & Hin).
      pose proof (tasks_face _ _ _ _ _ Hin) as ->. destruct (Hn g Hg) as [L3 Hi].
      destruct (in_tasks h g a b L3 Hin) as [Ha _].
      destruct (uinv_step g a b h1 h2 U) as [U2 Er2]; [rewrite E2; auto|auto| |].
      + intros e Hfe. unfold find_edge in Hfe. apply find_some in Hfe as [Hfe _].
        apply (N a); auto. rewrite E1. auto.
      + split; [|congruence]. split; [auto|]. exact (nedges_step _ _ _ _ _ N Hb).
  Qed.

  Lemma winv_uinv : forall comp ts h, winv comp ts h -> uinv h.
  Proof. intros comp ts h []. constructor; auto. Qed.

  Lemma finish_tail : forall merge zs h h1, placed merge zs h ->
    uinv h1 -> restE h1 = restE h ->
    exists h2, link_nodes_and_edges_to_zones h1 = (Ok tt, h2) /\ loaded merge zs h2 /\
      g_name h2 = g_name h /\ g_nborder h2 = g_nborder h /\ frameL h2 = frameL h1 /\
      (forall z, In z (g_zones h2) -> z_id h2 z = (-1)%Z).
  Proof.
    intros merge zs h h1 Hpl W Er. pose proof Hpl as (reps & Hr & Hi & Hf & L1 & L2 & Hp).
    destruct (restE_fields _ _ Er) as (A1 & A2 & A3 & A4 & A5 & A6 & A7).
    destruct (restE_zones _ _ Er) as (B1 & B2 & B3 & B4 & B5 & B6 & B7 & B8 & B9 & B10 & B11 & B12).
    pose proof (placed_zones_ok _ _ _ Hpl) as Zk.
    destruct (link_ok h1) as (h2 & E & Fr & Zl & Zi).
    { split; [rewrite B10; apply (zo_nd _ Zk)|]. split.
      - intros n f Hn Hx. rewrite A1 in Hn. rewrite A5 in Hx. rewrite B10, B6. apply (zo_cover _ Zk).
        apply (in_faces _ Hi n); auto.
      - intros e f He Hx. rewrite B10, B6. apply (zo_cover _ Zk). rewrite <- A2. apply (u_faces _ W e); auto. }
    exists h2. split; [auto|].
    destruct (frameL_fields _ _ Fr) as (C1 & C2 & C3 & C4 & C5 & C6 & C7 & _).
    destruct (frameL_more _ _ Fr) as (D1 & D2 & D3 & D4 & D5 & D6 & D7 & D8 & D9 & D10 & D11 & D12 & D13).
    split; [|split; [congruence|split; [congruence|split; [auto|rewrite C4; auto]]]].
    constructor.
    - rewrite C5, A1. apply (nr_nd _ _ _ _ Hr).
    - rewrite C5, A1, D2, B2. apply (nr_list _ _ _ _ Hr).
    - rewrite C5, A1, D2, B2, D3, A4. apply (nr_rc _ _ _ _ Hr).
    - rewrite C5, A1, D3, A4, D4, B3. apply (nr_bag _ _ _ _ Hr).
    - rewrite C5, A1, D3, A4. apply (nr_merge _ _ _ _ Hr).
    - unfold numbered_in_order. rewrite C5, A1, D1, B1, C6, D5, C7, A2, D6, B4. split; [|split].
      + apply (nr_glo _ _ _ _ Hr).
      + apply (u_glo _ W).
      + apply (fr_glo _ Hf).
    - apply holds_zones_ext with (h := h); try congruence. eapply placed_holds; eauto.
    - apply zones_ok_ext with (h := h); try congruence.
    - apply incid_ext with (h := h); congruence.
    - rewrite C6, C2. apply (u_two _ W).
    - auto.
  Qed.

  Lemma placed_nodes3 : forall merge zs h, placed merge zs h ->
    forall f, In f (g_faces h) -> length (f_nodes h f) = 3 /\ incl (f_nodes h f) (g_nodes h).
  Proof.
    intros merge zs h Hpl f H. pose proof Hpl as (reps & Hr & Hi & Hf & L1 & L2 & Hp).
    destruct (zone_at _ _ _ f Hpl H) as (i & z & zr & k & H1 & H2 & H3).
    destruct (placed_face merge zs h reps i z zr k f H1 H2 L1 Hp H3 Hr) as (rp & _ & K1 & K2 & _). auto.
  Qed.

  Lemma finish_inv : forall merge zs h h2, placed merge zs h ->
    finish h = (Ok tt, h2) ->
    loaded merge zs h2 /\ g_name h2 = g_name h /\ g_nborder h2 = g_nborder h /\
    (forall z, In z (g_zones h2) -> z_id h2 z = (-1)%Z).
  Proof.
    intros merge zs h h2 Hpl E.
    unfold finish in E. rewrite bind_gets in E. apply bind_inv in E as ([] & h1 & E1 & E2).
    destruct (edges_any h h1) as [U Er]; auto.
    { exact (placed_nodes3 _ _ _ Hpl). }
    { destruct Hpl as (reps & Hr & Hi & Hf & _). apply (fr_ge _ Hf). }
    { destruct Hpl as (reps & Hr & Hi & Hf & _). apply (nr_edges _ _ _ _ Hr). }
    destruct (finish_tail merge zs h h1 Hpl U Er) as (h2' & K1 & K2 & K3 & K4 & _ & K5).
    rewrite E2 in K1. injection K1 as <-. auto.
  Qed.

  Lemma finish_three : forall zs h h2, placed true zs h -> finish h = (Ok tt, h2) -> ~ three_share zs.
  Proof.
    intros zs h h2 Hpl E T. destruct (placed_ready _ _ _ Hpl (or_introl eq_refl)) as (comp & R).
    unfold finish in E. rewrite bind_gets in E. apply bind_inv in E as ([] & h1 & E1 & E2).
    apply (edges_three comp h h1 R E1).
    destruct Hpl as (reps & Hr & Hi & Hf & L1 & L2 & Hp).
    apply share_three_nodes with (zs := zs); auto.
    - eapply placed_holds. exists reps. split; [exact Hr|]. auto.
    - apply (nr_merge _ _ _ _ Hr); auto.
    - apply (in_nodes _ Hi).
    - apply (fr_nd _ Hf).
  Qed.

  Lemma topo_frame : forall h h', topo_ok h -> frameL h' = frameL h -> topo_ok h'.
  Proof.
    intros h h' [] E. unfold frameL, mesh in E. injection E. intros. constructor; 
      repeat match goal with H : _ h' = _ h |- _ => rewrite ?H; clear H end; auto.
  Qed.

  Lemma finish_ok : forall merge zs h, placed merge zs h -> separate merge zs ->
    no_degenerate zs -> ~ three_share zs ->
    exists h2, finish h = (Ok tt, h2) /\ topo_ok h2.
  Proof.
    intros merge zs h Hpl Sp Nd T. destruct (placed_ready _ _ _ Hpl Sp) as (comp & R).
    pose proof (placed_holds _ _ _ Hpl) as Hh.
    pose proof (no_degenerate_nd zs h Hh Nd) as Ndf.
    destruct (edges_strong comp h R Ndf) as (h1 & E1 & S & Er).
    { intros K. apply T. apply (three_nodes_share comp zs h); auto. }
    destruct (finish_tail merge zs h h1 Hpl (winv_uinv _ _ _ (s_w _ _ _ S)) Er) as (h2 & K1 & K2 & K3 & K4 & K5 & _).
    exists h2. split.
    - unfold finish. rewrite bind_gets. rewrite (bind_run _ _ _ _ _ _ _ E1). auto.
    - apply topo_frame with (h := h1); auto. destruct Hpl as (reps & Hr & Hi & Hf & _).
      apply (topo_of comp h h1); auto.
      + apply (nr_nd _ _ _ _ Hr).
      + apply (nr_alloc _ _ _ _ Hr).
      + apply (fr_alloc _ Hf).
  Qed.

  Lemma finish_topo : forall merge zs h h2, placed merge zs h -> separate merge zs ->
    finish h = (Ok tt, h2) -> no_degenerate zs -> topo_ok h2.
  Proof.
    intros merge zs h h2 Hpl Sp E Nd. destruct (placed_ready _ _ _ Hpl Sp) as (comp & R).
    pose proof (placed_holds _ _ _ Hpl) as Hh.
    pose proof (no_degenerate_nd zs h Hh Nd) as Ndf.
    unfold finish in E. rewrite bind_gets in E. apply bind_inv in E as ([] & h1 & E1 & E2).
    destruct (edges_strong comp h R Ndf) as (h1' & E1' & S & Er).
    { apply (edges_three comp h h1 R E1). }
    rewrite E1 in E1'. injection E1' as <-.
    destruct (finish_tail merge zs h h1 Hpl (winv_uinv _ _ _ (s_w _ _ _ S)) Er) as (h2' & K1 & K2 & K3 & K4 & K5 & _).
    rewrite E2 in K1. injection K1 as <-.
    apply topo_frame with (h := h1); auto. destruct Hpl as (reps & Hr & Hi & Hf & _).
    apply (topo_of comp h h1); auto.
    - apply (nr_nd _ _ _ _ Hr).
    - apply (nr_alloc _ _ _ _ Hr).
    - apply (fr_alloc _ Hf).
  Qed.

  (** load reads the events of the file and finishes. *)
  Lemma load_events : forall merge text h evs, file_form [] (file_lines text) evs ->
    exists h1, placed merge (zones_of evs) h1 /\ g_name h1 = title_after (g_name h) evs /\
      g_nborder h1 = g_nborder h /\ load merge text h = finish h1.
  Proof.
    intros merge text h evs H. destruct (clear_run h) as (h0 & E0 & A1 & A2 & A3 & A4 & A5 & A6 & A7).
    destruct (build_events_ok merge evs [] h0) as (h1 & E1 & B1 & B2 & B3).
    - apply placed_start; auto.
    - apply (file_form_ok _ _ _ H).
    - exists h1. split; [exact B1|]. split; [congruence|]. split; [congruence|].
      unfold load. rewrite (bind_run _ _ _ _ _ _ _ E0).
      rewrite (bind_run _ _ (load_loop _ _ _ _) _ _ tt h1); [reflexivity|].
      rewrite (load_loop_build _ _ _ H); auto.
  Qed.

  Lemma load_form : forall merge text h h', load merge text h = (Ok tt, h') ->
    exists evs, file_form [] (file_lines text) evs.
  Proof.
    intros merge text h h' H. unfold load in H. apply bind_inv in H as ([] & h0 & _ & H).
    apply bind_inv in H as ([] & h1 & H & _). exact (load_loop_form _ _ _ _ _ _ H).
  Qed.

  (* ---------------------------------------------------------------- *)
  (** ** The statements *)

  Lemma load_result : forall merge text h h' evs, load merge text h = (Ok tt, h') ->
    file_form [] (file_lines text) evs ->
    loaded merge (zones_of evs) h' /\ g_name h' = title_after (g_name h) evs.
  Proof.
    intros merge text h h' evs E Hf. destruct (load_events merge text h evs Hf) as (h1 & P & N & _ & El).
    rewrite El in E. destruct (finish_inv _ _ _ _ P E) as (L & G & _). split; auto. congruence.
  Qed.

  Lemma load_incidence : forall merge text h h' evs, load merge text h = (Ok tt, h') ->
    file_form [] (file_lines text) evs -> separate merge (zones_of evs) ->
    no_degenerate (zones_of evs) -> topo_ok h'.
  Proof.
    intros merge text h h' evs E Hf Sp Nd. destruct (load_events merge text h evs Hf) as (h1 & P & N & _ & El).
    rewrite El in E. exact (finish_topo _ _ _ _ P Sp E Nd).
  Qed.

  Lemma load_accepts : forall merge text h evs,
    file_form [] (file_lines text) evs -> separate merge (zones_of evs) ->
    no_degenerate (zones_of evs) -> ~ three_share (zones_of evs) ->
    exists h', load merge text h = (Ok tt, h').
  Proof.
    intros merge text h evs Hf Sp Nd T. destruct (load_events merge text h evs Hf) as (h1 & P & N & _ & El).
    destruct (finish_ok _ _ _ P Sp Nd T) as (h2 & E & _). exists h2. congruence.
  Qed.

  Lemma load_rejects : forall text h evs, file_form [] (file_lines text) evs ->
    three_share (zones_of evs) -> exists e, fst (load true text h) = Raise e.
  Proof.
    intros text h evs Hf T. destruct (load true text h) as [[[]|e] h'] eqn:E; [|exists e; auto].
    exfalso. destruct (load_events true text h evs Hf) as (h1 & P & N & _ & El).
    rewrite El in E. exact (finish_three _ _ _ P E T).
  Qed.
End Main.
