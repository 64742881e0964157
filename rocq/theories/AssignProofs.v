(** Proofs about moving faces between zones; mono, random and linear
    decompositions. *)

From Coq Require Import ZArith NArith Ascii String Bool Lia List Permutation.
From Verif Require Import Py PyLemmas Heap HeapLemmas GridModel GridSpec DecompProofs.
Import ListNotations.
Open Scope list_scope.

Lemma filter_nil_none : forall A (p : A -> bool) l,
  (forall x, In x l -> p x = false) -> filter p l = [].
Proof.
  induction l as [|x l IH]; intros H; simpl; auto.
  rewrite H by (left; auto). apply IH. intros; apply H; right; auto.
Qed.

Lemma filter_all : forall A (p : A -> bool) l,
  (forall x, In x l -> p x = true) -> filter p l = l.
Proof.
  induction l as [|x l IH]; intros H; simpl; auto.
  rewrite H by (left; auto). f_equal. apply IH. intros; apply H; right; auto.
Qed.

Section Assign.
  Context {F : FloatOps}.

  (** Everything except Face.Zone and Zone.Faces. *)
  Definition frameZ (h : heap) :=
    (mesh h, f_mark h, (z_id h, z_name h, z_nodes h, z_edges h, z_fixed h, next_z h),
     (g_name h, g_zones h)).

  Lemma frameZ_fields : forall h h', frameZ h' = frameZ h ->
    mesh h' = mesh h /\ g_zones h' = g_zones h /\ g_faces h' = g_faces h /\
    next_z h' = next_z h /\ z_fixed h' = z_fixed h /\ z_name h' = z_name h /\ g_name h' = g_name h /\
    f_mark h' = f_mark h.
  Proof. intros h h' E. unfold frameZ, mesh in *. inv E. repeat split; congruence. Qed.

  Lemma mesh_fields : forall h h', mesh h' = mesh h ->
    n_glo h' = n_glo h /\ n_p h' = n_p h /\ n_rc h' = n_rc h /\ n_edges h' = n_edges h /\
    n_faces h' = n_faces h /\ n_border h' = n_border h /\ e_glo h' = e_glo h /\
    e_nodes h' = e_nodes h /\ e_faces h' = e_faces h /\ f_glo h' = f_glo h /\
    f_data h' = f_data h /\ f_nodes h' = f_nodes h /\ f_edges h' = f_edges h /\
    g_nodes h' = g_nodes h /\ g_edges h' = g_edges h /\ g_faces h' = g_faces h /\
    g_bag h' = g_bag h /\ g_nborder h' = g_nborder h /\
    next_n h' = next_n h /\ next_e h' = next_e h /\ next_f h' = next_f h.
  Proof. intros h h' E. unfold mesh in *. inv E. repeat split; congruence. Qed.

  Lemma topo_mesh : forall h h', mesh h' = mesh h -> topo_ok h -> topo_ok h'.
  Proof.
    intros h h' E H.
    apply mesh_fields in E as (E1 & E2 & E3 & E4 & E5 & E6 & E7 & E8 & E9 & E10 & E11 & E12 & E13
      & E14 & E15 & E16 & E17 & E18 & E19 & E20 & E21).
    destruct H. constructor;
      rewrite ?E4, ?E5, ?E8, ?E9, ?E12, ?E13, ?E14, ?E15, ?E16, ?E19, ?E20, ?E21; assumption.
  Qed.

  (* ---------------------------------------------------------------- *)
  (** ** Zone.add_face *)

  Lemma zone_add_face_ok : forall z f h,
    f_zone h f <> Some z ->
    (forall z0, f_zone h f = Some z0 -> In f (z_faces h z0)) ->
    exists h', zone_add_face z f h = (Ok tt, h') /\ frameZ h' = frameZ h /\
      f_zone h' f = Some z /\ (forall g, g <> f -> f_zone h' g = f_zone h g) /\
      (z_faces h' z = z_faces h z ++ [f]) /\
      (forall z', z' <> z -> f_zone h f <> Some z' -> z_faces h' z' = z_faces h z') /\
      (forall z', f_zone h f = Some z' ->
         exists a b, z_faces h z' = a ++ f :: b /\ z_faces h' z' = a ++ b).
  Proof.
    intros z f h Hne Hin. unfold zone_add_face. rewrite bind_gets.
    destruct (f_zone h f) as [z0|] eqn:Ez0.
    - specialize (Hin z0 eq_refl).
      unfold unlink_from_zone. rewrite bind_assoc. rewrite bind_gets. rewrite Ez0.
      unfold zone_remove_face. rewrite !bind_assoc. rewrite bind_gets.
      destruct (remove1 (Nat.eqb f) (z_faces h z0)) as [l'|] eqn:Er.
      2:{ apply remove1_None in Er. exfalso.
          assert (existsb (Nat.eqb f) (z_faces h z0) = true).
          { apply existsb_exists. exists f. split; auto. apply Nat.eqb_refl. }
          congruence. }
      apply remove1_split in Er as (a & x & b & Ea & -> & Hx & Ha).
      apply Nat.eqb_eq in Hx. subst x.
      rewrite bind_modify. eexists. split; [reflexivity|]. cbn.
      split; [reflexivity|].
      assert (z <> z0) by congruence.
      split; [apply upd_same|]. split; [|split; [|split]].
      + intros g Hg. rewrite !upd_other by auto. auto.
      + rewrite upd_same, upd_other by auto. auto.
      + intros z' Hz' Hz0. rewrite !upd_other by congruence. auto.
      + intros z' Hz'. inv Hz'. exists a, b. split; auto.
        rewrite upd_other by auto. apply upd_same.
    - rewrite bind_ret. eexists. split; [reflexivity|]. cbn.
      split; [reflexivity|].
      split; [apply upd_same|]. split; [|split; [|split]].
      + intros g Hg. rewrite !upd_other by auto. auto.
      + apply upd_same.
      + intros z' Hz' Hz0. rewrite !upd_other by congruence. auto.
      + intros z' Hz'. discriminate.
  Qed.

  Lemma zone_add_face_frame : forall z f h r h', zone_add_face z f h = (r, h') -> frameZ h' = frameZ h.
  Proof.
    intros z f h r h' H. unfold zone_add_face in H. rewrite bind_gets in H.
    destruct (f_zone h f) as [z0|] eqn:Ez.
    - unfold unlink_from_zone in H. rewrite bind_assoc in H. rewrite bind_gets in H.
      rewrite Ez in H. unfold zone_remove_face in H. rewrite !bind_assoc in H. rewrite bind_gets in H.
      destruct (remove1 (Nat.eqb f) (z_faces h z0)); inv H; reflexivity.
    - inv H. reflexivity.
  Qed.

  (** A list of assignments (zone, face). *)
  Definition assign (ps : list (nat * nat)) : M unit :=
    for_each ps (fun zf => zone_add_face (fst zf) (snd zf)).

  Definition faces_for (z : nat) (ps : list (nat * nat)) : list nat :=
    map snd (filter (fun zf => Nat.eqb (fst zf) z) ps).

  Lemma faces_for_app : forall z a b, faces_for z (a ++ b) = faces_for z a ++ faces_for z b.
  Proof. intros. unfold faces_for. rewrite filter_app, map_app. auto. Qed.

  Lemma faces_for_In : forall z f ps, In f (faces_for z ps) <-> In (z, f) ps.
  Proof.
    intros z f ps. unfold faces_for. rewrite in_map_iff. split.
    - intros ([z' f'] & E & H). apply filter_In in H as [H1 H2]. simpl in *.
      apply Nat.eqb_eq in H2. subst. auto.
    - intros H. exists (z, f). split; auto. apply filter_In. split; auto. apply Nat.eqb_refl.
  Qed.

  Lemma faces_for_NoDup : forall z ps, NoDup (map snd ps) -> NoDup (faces_for z ps).
  Proof.
    intros z ps. unfold faces_for. induction ps as [|[a b] ps IH]; simpl; intros H; [constructor|].
    inv H. destruct (Nat.eqb a z); simpl; auto. constructor; auto.
    intro Hc. apply H2. apply in_map_iff in Hc as (x & E & Hx). apply filter_In in Hx as [Hx _].
    apply in_map_iff. eauto.
  Qed.

  Lemma assign_ok : forall (T : nat -> Prop) ps h,
    (forall z f, In (z, f) ps -> T z) ->
    NoDup (map snd ps) ->
    (forall f z0, In f (map snd ps) -> f_zone h f = Some z0 -> ~ T z0 /\ In f (z_faces h z0)) ->
    exists h', assign ps h = (Ok tt, h') /\ frameZ h' = frameZ h /\
      (forall z, T z -> z_faces h' z = z_faces h z ++ faces_for z ps) /\
      (forall z f, In (z, f) ps -> f_zone h' f = Some z) /\
      (forall f, ~ In f (map snd ps) -> f_zone h' f = f_zone h f) /\
      (forall z, ~ T z -> (forall f, In f (map snd ps) -> f_zone h f <> Some z) ->
         z_faces h' z = z_faces h z).
  Proof.
    intros T ps h HT Hnd Hst. unfold assign.
    destruct (for_each_ok _ ps (fun zf => zone_add_face (fst zf) (snd zf))
      (fun done h1 => frameZ h1 = frameZ h /\
        (forall z, T z -> z_faces h1 z = z_faces h z ++ faces_for z done) /\
        (forall z f, In (z, f) done -> f_zone h1 f = Some z) /\
        (forall f, ~ In f (map snd done) -> f_zone h1 f = f_zone h f) /\
        (forall z, ~ T z -> (forall f, In f (map snd ps) -> f_zone h f <> Some z) ->
           z_faces h1 z = z_faces h z) /\
        (forall f z0, In f (map snd ps) -> ~ In f (map snd done) -> f_zone h f = Some z0 ->
           In f (z_faces h1 z0))) h) as (h' & E & HI).
    - split; [auto|]. split; [intros; unfold faces_for; simpl; rewrite app_nil_r; auto|].
      split; [intros z f []|]. split; [auto|]. split; [auto|].
      intros f z0 Hf _ Hz. apply (Hst f z0); auto.
    - intros done [z f] rest h1 El (Hf & HTz & Hd & Hnd1 & Hoth & Hrem).
      assert (Hps : In (z, f) ps) by (rewrite El; apply in_or_app; simpl; auto).
      assert (Hfm : In f (map snd ps)) by (apply in_map_iff; exists (z, f); auto).
      assert (Hnotin : ~ In f (map snd done) /\ ~ In f (map snd rest)).
      { rewrite El, map_app in Hnd. simpl in Hnd. apply NoDup_remove_2 in Hnd.
        split; intro; apply Hnd; apply in_or_app; auto. }
      destruct Hnotin as [Hn1 Hn2].
      assert (Efz : f_zone h1 f = f_zone h f) by auto.
      destruct (zone_add_face_ok z f h1) as (h2 & E2 & F2 & Z2 & O2 & A2 & B2 & C2).
      { rewrite Efz. intro Hc. apply (Hst f z Hfm) in Hc as [Hc _]. apply Hc. eauto. }
      { intros z0 Hz0. rewrite Efz in Hz0. auto. }
      exists h2. split; [exact E2|]. split; [congruence|].
      split; [|split; [|split; [|split]]].
      + intros z' Hz'. rewrite faces_for_app. unfold faces_for at 2. simpl.
        destruct (Nat.eqb_spec z z') as [->|Hne].
        * rewrite A2, (HTz z') by auto. simpl. rewrite app_assoc. auto.
        * rewrite B2; auto.
          -- rewrite (HTz z') by auto. simpl. rewrite app_nil_r. auto.
          -- rewrite Efz. intro Hc. apply (Hst f z' Hfm) in Hc as [Hc _]. auto.
      + intros z' f' Hi. apply in_app_or in Hi as [Hi|[Hi|[]]].
        * assert (f' <> f).
          { intro. subst. apply Hn1. apply in_map_iff. exists (z', f). auto. }
          rewrite O2 by auto. auto.
        * inv Hi. auto.
      + intros g Hg. rewrite map_app in Hg. simpl in Hg.
        assert (g <> f) by (intro; subst; apply Hg; apply in_or_app; simpl; auto).
        rewrite O2 by auto. apply Hnd1. intro. apply Hg. apply in_or_app; auto.
      + intros z' Hz' Hall. rewrite B2; auto.
        * intro. subst. apply Hz'. eauto.
        * rewrite Efz. auto.
      + intros g z0 Hg Hgd Hz0. rewrite map_app in Hgd. simpl in Hgd.
        assert (g <> f) by (intro; subst; apply Hgd; apply in_or_app; simpl; auto).
        assert (Hgd' : ~ In g (map snd done)) by (intro; apply Hgd; apply in_or_app; auto).
        specialize (Hrem g z0 Hg Hgd' Hz0).
        destruct (Nat.eq_dec z0 z) as [->|Hne].
        { rewrite A2. apply in_or_app; auto. }
        destruct (f_zone h1 f) as [zf|] eqn:Ezf.
        * destruct (Nat.eq_dec zf z0) as [->|Hne0].
          -- destruct (C2 z0 eq_refl) as (a & b & Ea & Eb). rewrite Eb.
             rewrite Ea in Hrem. apply in_app_or in Hrem as [Hr|[Hr|Hr]]; try congruence;
               apply in_or_app; auto.
          -- rewrite B2; auto. congruence.
        * rewrite B2; auto. discriminate.
    - exists h'. destruct HI as (H1 & H2 & H3 & H4 & H5 & _).
      split; [exact E|]. split; [exact H1|]. split; [exact H2|]. split; [exact H3|]. split; auto.
  Qed.

  Lemma assign_app : forall a b h, assign (a ++ b) h = bind (assign a) (fun _ => assign b) h.
  Proof. intros. unfold assign. apply for_each_app. Qed.

  Lemma assign_const : forall z fs h,
    for_each fs (fun f => zone_add_face z f) h = assign (map (fun f => (z, f)) fs) h.
  Proof.
    intros z fs. unfold assign. induction fs as [|f fs IH]; intros h; auto.
    cbn [map for_each]. unfold bind. cbn [fst snd].
    destruct (zone_add_face z f h) as [[[]|e] h1]; auto.
  Qed.

  (* ---------------------------------------------------------------- *)
  (** ** Unlinking and zone creation *)

  Definition frameU (h : heap) :=
    (mesh h, f_mark h, (z_id h, z_name h, z_nodes h, z_edges h, z_faces h, z_fixed h, next_z h),
     (g_name h, g_zones h)).

  Lemma unlink_ok : forall h, NoDup (g_faces h) ->
    (forall f, In f (g_faces h) -> f_zone h f <> None) ->
    exists h', unlink_faces_from_zones h = (Ok tt, h') /\ frameU h' = frameU h /\
      (forall f, ~ In f (g_faces h) -> f_zone h' f = f_zone h f) /\
      (forall f z, In f (g_faces h) -> f_zone h f = Some z ->
         f_zone h' f = if z_fixed h z then Some z else None).
  Proof.
    intros h Hnd Hz. unfold unlink_faces_from_zones. rewrite bind_gets.
    destruct (for_each_ok _ (g_faces h)
      (fun f => zo <- gets (fun h => f_zone h f) ;;
        match zo with
        | None => raise EAttributeError
        | Some z => fx <- gets (fun h => z_fixed h z) ;;
                    if fx then ret tt else set_zone f None
        end)
      (fun done h1 => frameU h1 = frameU h /\
        (forall f, ~ In f done -> f_zone h1 f = f_zone h f) /\
        (forall f z, In f done -> f_zone h f = Some z ->
           f_zone h1 f = if z_fixed h z then Some z else None)) h) as (h' & E & H1 & H2 & H3).
    - split; auto. split; auto. intros f z [].
    - intros done f rest h1 El (Hf & Ho & Hd).
      assert (Hin : In f (g_faces h)) by (rewrite El; apply in_or_app; simpl; auto).
      assert (Hnin : ~ In f done).
      { rewrite El in Hnd. apply NoDup_remove_2 in Hnd. intro. apply Hnd, in_or_app; auto. }
      rewrite bind_gets. rewrite Ho by auto.
      destruct (f_zone h f) as [z|] eqn:Ez; [|exfalso; eapply Hz; eauto].
      rewrite bind_gets.
      assert (Efx : z_fixed h1 = z_fixed h) by (unfold frameU in Hf; congruence).
      rewrite Efx. destruct (z_fixed h z) eqn:Efz.
      + exists h1. split; [reflexivity|]. split; [auto|]. split.
        * intros g Hg. apply Ho. intro. apply Hg, in_or_app; auto.
        * intros g z' Hg Hz'. apply in_app_or in Hg as [Hg|[<-|[]]]; [auto|].
          rewrite Ho by auto. rewrite Ez in Hz'. inv Hz'. rewrite Efz. auto.
      + eexists. split; [reflexivity|]. split; [rewrite <- Hf; reflexivity|]. cbn. split.
        * intros g Hg. assert (g <> f) by (intro; subst; apply Hg, in_or_app; simpl; auto).
          rewrite upd_other by auto. apply Ho. intro. apply Hg, in_or_app; auto.
        * intros g z' Hg Hz'. destruct (Nat.eq_dec g f) as [->|Hne].
          -- rewrite upd_same. rewrite Ez in Hz'. inv Hz'. rewrite Efz. auto.
          -- rewrite upd_other by auto. apply in_app_or in Hg as [Hg|[Hg|[]]]; [auto|congruence].
    - exists h'. auto.
  Qed.

  (** Everything untouched by the creation of zones. *)
  Definition frameC (h : heap) := (mesh h, f_mark h, f_zone h, g_name h).

  Lemma create_zones_ok : forall prefix count h,
    exists h', create_zones prefix count h = (Ok tt, h') /\ frameC h' = frameC h /\
      next_z h' = next_z h + count /\
      g_zones h' = g_zones h ++ seq (next_z h) count /\
      (forall i, i < count ->
         z_faces h' (next_z h + i) = [] /\ z_fixed h' (next_z h + i) = false /\
         z_name h' (next_z h + i) = prefix ++ nat_str i) /\
      (forall z, z < next_z h -> z_faces h' z = z_faces h z /\ z_fixed h' z = z_fixed h z /\
         z_name h' z = z_name h z).
  Proof.
    intros prefix count h. unfold create_zones.
    destruct (for_each_ok _ (seq 0 count)
      (fun i => z <- new_zone (prefix ++ nat_str i) ;; append_zone z)
      (fun done h1 => let k := length done in
        frameC h1 = frameC h /\ next_z h1 = next_z h + k /\
        g_zones h1 = g_zones h ++ seq (next_z h) k /\
        (forall i, i < k ->
           z_faces h1 (next_z h + i) = [] /\ z_fixed h1 (next_z h + i) = false /\
           z_name h1 (next_z h + i) = prefix ++ nat_str i) /\
        (forall z, z < next_z h -> z_faces h1 z = z_faces h z /\ z_fixed h1 z = z_fixed h z /\
           z_name h1 z = z_name h z)) h) as (h' & E & HI).
    - simpl. rewrite app_nil_r. repeat split; auto; intros; lia.
    - intros done x rest h1 El (Hf & Hn & Hg & Hnew & Hold).
      assert (Hx : x = length done).
      { assert (nth_error (seq 0 count) (length done) = Some x).
        { rewrite El, nth_error_app2, Nat.sub_diag by lia. reflexivity. }
        assert (length done < count).
        { rewrite <- (seq_length count 0), El, app_length. simpl. lia. }
        rewrite nth_error_nth' with (d := 0) in H by (rewrite seq_length; auto).
        rewrite seq_nth in H by auto. inv H. lia. }
      subst x. eexists. split; [reflexivity|]. cbn zeta.
      rewrite app_length. cbn [length]. rewrite Nat.add_1_r.
      split; [rewrite <- Hf; reflexivity|]. split; [cbn; lia|]. split; [|split].
      + cbn. rewrite Hg, Hn. rewrite <- app_assoc. f_equal.
        rewrite <- seq_S. reflexivity.
      + intros i Hi. cbn. rewrite Hn. destruct (Nat.eq_dec i (length done)) as [->|Hne].
        * rewrite !upd_same. auto.
        * rewrite !upd_other by lia. apply Hnew. lia.
      + intros z Hz. cbn. rewrite !upd_other by lia. auto.
    - exists h'. rewrite seq_length in HI. cbn zeta in HI. split; auto.
  Qed.

  (* ---------------------------------------------------------------- *)
  (** ** From scratch decompositions *)

  (** Zones after creation: none of the new zones has faces, faces point
      nowhere or to an old zone that lists them. *)
  Definition ready (h : heap) (T : list nat) : Prop :=
    NoDup T /\ g_zones h = T /\ (forall z, In z T -> z < next_z h) /\
    (forall z, In z T -> z_faces h z = []) /\
    (forall f z, In f (g_faces h) -> f_zone h f = Some z -> ~ In z T /\ In f (z_faces h z)).

  Lemma assign_all_ok : forall h T ps, topo_ok h -> ready h T ->
    (forall z f, In (z, f) ps -> In z T) ->
    Permutation (map snd ps) (g_faces h) ->
    exists h', assign ps h = (Ok tt, h') /\ frameZ h' = frameZ h /\ zones_ok h' /\
      (forall z, In z T -> z_faces h' z = faces_for z ps) /\
      (forall z f, In (z, f) ps -> f_zone h' f = Some z).
  Proof.
    intros h T ps Ht (HT1 & HT2 & HT3 & HT4 & HT5) Hps Hperm.
    assert (Hnd : NoDup (map snd ps)).
    { eapply Permutation_NoDup; [apply Permutation_sym; eauto|]. apply t_faces_nd; auto. }
    destruct (assign_ok (fun z => In z T) ps h) as (h' & E & Hf & Hz & Hin & Hout & _); auto.
    { intros f z0 Hi Hz0. apply HT5; auto. eapply Permutation_in; eauto. }
    exists h'. split; [auto|]. split; [auto|].
    assert (Hz' : forall z, In z T -> z_faces h' z = faces_for z ps).
    { intros z Hi. rewrite Hz by auto. rewrite HT4 by auto. reflexivity. }
    pose proof (frameZ_fields _ _ Hf) as (Em & Ez & Ef & En & _).
    split; [|split; auto].
    constructor.
    - rewrite Ez, HT2. auto.
    - rewrite Ez, HT2, En. auto.
    - rewrite Ez, HT2. intros z Hi. rewrite Hz' by auto. apply faces_for_NoDup; auto.
    - rewrite Ez, HT2, Ef. intros z f Hi. rewrite Hz' by auto. rewrite faces_for_In. split.
      + intros H. split; [|eapply Hin; eauto].
        eapply Permutation_in; [eauto|]. apply in_map_iff. exists (z, f). auto.
      + intros [H1 H2]. eapply Permutation_in in H1; [|apply Permutation_sym; eauto].
        apply in_map_iff in H1 as ([z' f'] & E' & H1). simpl in E'. subst f'.
        rewrite (Hin z' f H1) in H2. inv H2. auto.
    - rewrite Ef, Ez, HT2. intros f Hi.
      eapply Permutation_in in Hi; [|apply Permutation_sym; eauto].
      apply in_map_iff in Hi as ([z' f'] & E' & H1). simpl in E'. subst f'.
      exists z'. split; eauto.
  Qed.

  Lemma linkable_of : forall h, topo_ok h -> zones_ok h -> linkable h.
  Proof.
    intros h Ht Hz. split; [apply zo_nd; auto|]. split.
    - intros n f Hn Hf. apply (zo_cover h Hz). apply (t_node_faces h Ht n Hn). auto.
    - intros e f He Hf. apply (zo_cover h Hz). apply (t_edge_faces h Ht e He). auto.
  Qed.

  Lemma post_ok : forall h, topo_ok h -> zones_ok h ->
    exists h', post_decompose h = (Ok tt, h') /\ frameL h' = frameL h /\
      zones_ok h' /\ zone_lists_ok h' /\ zone_ids_ok h'.
  Proof.
    intros h Ht Hz. destruct (post_decompose_ok h) as (h' & E & Hf & Hl & Hi).
    - apply linkable_of; auto.
    - intros f Hf. destruct (zo_cover h Hz f Hf) as (z & _ & ->). discriminate.
    - exists h'. split; [auto|]. split; [auto|]. split; [|auto].
      pose proof (frameL_fields _ _ Hf) as (_ & _ & Efz & Ez & _ & _ & Egf & _).
      assert (Ezf : z_faces h' = z_faces h) by (unfold frameL in Hf; congruence).
      assert (Enz : next_z h' = next_z h) by (unfold frameL in Hf; congruence).
      destruct Hz. constructor; rewrite ?Efz, ?Ez, ?Egf, ?Ezf, ?Enz; auto.
  Qed.

  (** The prologue common to mono, random and linear: drop all zones, unlink
      the faces, create new zones. *)
  Lemma prologue_ok : forall prefix count h, grid_ok h ->
    let h0 := set_g_zones h [] in
    exists h1 h2, unlink_faces_from_zones h0 = (Ok tt, h1) /\
      create_zones prefix count h1 = (Ok tt, h2) /\
      mesh h2 = mesh h /\ g_name h2 = g_name h /\ ready h2 (seq (next_z h) count) /\
      (forall i, i < count -> z_name h2 (next_z h + i) = prefix ++ nat_str i).
  Proof.
    intros prefix count h [Ht Hz] h0.
    destruct (unlink_ok h0) as (h1 & E1 & F1 & O1 & Z1).
    { apply (t_faces_nd h Ht). }
    { intros f Hf. destruct (zo_cover h Hz f Hf) as (z & _ & E). cbn. rewrite E. discriminate. }
    destruct (create_zones_ok prefix count h1) as (h2 & E2 & F2 & N2 & G2 & New2 & Old2).
    exists h1, h2. split; [auto|]. split; [auto|].
    assert (En1 : next_z h1 = next_z h) by (unfold frameU in F1; cbn in F1; congruence).
    assert (Eg1 : g_zones h1 = []) by (unfold frameU in F1; cbn in F1; congruence).
    assert (Ef1 : z_faces h1 = z_faces h) by (unfold frameU in F1; cbn in F1; congruence).
    assert (Em1 : mesh h1 = mesh h) by (change (mesh h) with (mesh h0); unfold frameU in F1; congruence).
    assert (Em2 : mesh h2 = mesh h1) by (unfold frameC in F2; congruence).
    assert (Efz2 : f_zone h2 = f_zone h1) by (unfold frameC in F2; congruence).
    split; [congruence|]. split.
    { unfold frameC in F2. unfold frameU in F1. cbn in F1. congruence. }
    rewrite En1 in *. split.
    - split; [apply seq_NoDup|]. split; [rewrite G2, Eg1; auto|].
      split; [intros z Hi; apply in_seq in Hi; lia|]. split.
      + intros z Hi. apply in_seq in Hi.
        destruct (New2 (z - next_z h)) as (H1 & _); [lia|].
        replace (next_z h + (z - next_z h)) with z in H1 by lia. auto.
      + intros f z Hi Hfz. rewrite Efz2 in Hfz.
        assert (Hi' : In f (g_faces h)).
        { apply mesh_fields in Em1, Em2. decompose [and] Em1. decompose [and] Em2. congruence. }
        destruct (zo_cover h Hz f Hi') as (z0 & Hz0 & Ez0).
        rewrite (Z1 f z0 Hi' Ez0) in Hfz. destruct (z_fixed h0 z0); [|discriminate].
        inv Hfz. pose proof (zo_alloc h Hz z Hz0) as Hlt. split.
        * intro Hc. apply in_seq in Hc. lia.
        * destruct (Old2 z Hlt) as (-> & _). rewrite Ef1. apply zo_faces; auto.
    - intros i Hi. apply New2. auto.
  Qed.
End Assign.
