(** Splitting of one zone: metric and split. *)

From Coq Require Import ZArith NArith Ascii String Bool Lia List Permutation.
From Verif Require Import Py PyLemmas Heap HeapLemmas GridModel GridSpec DecompProofs AssignProofs
  SimpleDecomp PartialZones SortProofs.
Import ListNotations.
Open Scope list_scope.

Section Split.
  Context {F : FloatOps}.

  Lemma set_f_zone_id : forall h, set_f_zone h (f_zone h) = h.
  Proof. destruct h; reflexivity. Qed.

  Lemma for_each_set_zone : forall (g : nat -> option nat) fs h,
    exists v, for_each fs (fun f => set_zone f (g f)) h = (Ok tt, set_f_zone h v) /\
      (forall f, In f fs -> v f = g f) /\ (forall f, ~ In f fs -> v f = f_zone h f).
  Proof.
    intros g fs. induction fs as [|f fs IH]; intros h.
    - exists (f_zone h). rewrite set_f_zone_id. split; [reflexivity|]. split; [intros f []|auto].
    - cbn [for_each]. unfold set_zone at 1. rewrite bind_modify.
      destruct (IH (set_f_zone h (upd (f_zone h) f (g f)))) as (v & E & H1 & H2).
      exists v. split; [exact E|]. split.
      + intros k [<-|Hk]; auto. destruct (in_dec Nat.eq_dec f fs); auto.
        rewrite H2 by auto. cbn. apply upd_same.
      + intros k Hk. rewrite H2 by (intro; apply Hk; simpl; auto). cbn.
        apply upd_other. intro; subst. apply Hk; simpl; auto.
  Qed.

  Definition lefts (h : heap) (fn : heap -> nat -> val) (b : val) (fs : list nat) : list nat :=
    filter (fun f => vltb (fn h f) b) fs.
  Definition rights (h : heap) (fn : heap -> nat -> val) (b : val) (fs : list nat) : list nat :=
    filter (fun f => negb (vltb (fn h f) b)) fs.

  Lemma blade_mesh : forall h h' fn fs, mesh_sign fn -> mesh h' = mesh h ->
    blade_of h' fn fs = blade_of h fn fs.
  Proof.
    intros h h' fn fs Hm Em. unfold blade_of.
    rewrite (map_ext (fn h') (fn h)) by (intros; apply Hm; auto). auto.
  Qed.

  Lemma list_sum_cons : forall a l, list_sum (a :: l) = a + list_sum l.
  Proof. reflexivity. Qed.

  Lemma list_sum_swap : forall (p : nat -> bool) (E : nat -> list nat) ge fs, NoDup ge ->
    (forall f, In f fs -> NoDup (E f) /\ incl (E f) ge) ->
    list_sum (map (fun f => length (filter p (E f))) fs) =
    list_sum (map (fun e => if p e
      then length (filter (fun f => if in_dec Nat.eq_dec e (E f) then true else false) fs) else 0) ge).
  Proof.
    intros p E ge fs Hge. induction fs as [|f fs IH]; intros H.
    - clear. change (list_sum (map _ [])) with 0.
      induction ge as [|e ge IH]; auto. cbn [map].
      rewrite ?list_sum_cons. rewrite <- IH. destruct (p e); auto.
    - cbn [map]. rewrite ?list_sum_cons.
      rewrite IH by (intros; apply H; simpl; auto).
      destruct (H f) as [Hn Hi]; [simpl; auto|].
      assert (L : length (filter p (E f)) =
        list_sum (map (fun e => if p e then (if in_dec Nat.eq_dec e (E f) then 1 else 0) else 0) ge)).
      { assert (P : length (filter p (E f)) =
          length (filter (fun e => p e && if in_dec Nat.eq_dec e (E f) then true else false) ge)).
        { apply Permutation_length. apply NoDup_Permutation.
          - apply NoDup_filter; auto.
          - apply NoDup_filter; auto.
          - intros e. rewrite !filter_In. destruct (in_dec Nat.eq_dec e (E f)).
            + rewrite andb_true_r. split; [intros [? ?]; split; auto; apply Hi; auto|tauto].
            + rewrite andb_false_r. split; [tauto|intros [_ ?]; discriminate]. }
        rewrite P. clear. induction ge as [|e ge IH]; auto. cbn [filter map].
        rewrite ?list_sum_cons.
        destruct (p e), (in_dec Nat.eq_dec e (E f)); cbn; lia. }
      rewrite L. clear. cbn [filter]. induction ge as [|e ge IH]; auto. cbn [map].
      rewrite ?list_sum_cons.
      destruct (p e), (in_dec Nat.eq_dec e (E f)); cbn [length]; lia.
  Qed.

  Lemma filter_two : forall (p : nat -> bool) fs a b, NoDup fs -> In a fs -> In b fs -> a <> b ->
    (forall f, In f fs -> (p f = true <-> f = a \/ f = b)) -> length (filter p fs) = 2.
  Proof.
    intros p fs a b Hn Ha Hb Hab Hp.
    assert (P : Permutation (filter p fs) [a; b]).
    { apply NoDup_Permutation.
      - apply NoDup_filter; auto.
      - constructor; [intros [?|[]]; congruence|]. constructor; [intros []|constructor].
      - intros f. rewrite filter_In. split.
        + intros [Hf Hpf]. apply Hp in Hpf; auto. destruct Hpf; subst; simpl; auto.
        + intros [<-|[<-|[]]]; split; auto; apply Hp; auto. }
    apply Permutation_length in P. auto.
  Qed.

  Lemma list_sum_double : forall A (p q : A -> bool) (k : A -> nat) l,
    (forall x, In x l -> p x = q x) -> (forall x, In x l -> p x = true -> k x = 2) ->
    list_sum (map (fun x => if p x then k x else 0) l) = 2 * length (filter q l).
  Proof.
    intros A p q k l. induction l as [|x l IH]; intros H1 H2; auto.
    cbn [map filter]. rewrite ?list_sum_cons.
    rewrite IH; [|intros y Hy; apply H1; simpl; auto|intros y Hy; apply H2; simpl; auto].
    rewrite <- (H1 x) by (simpl; auto). destruct (p x) eqn:E; [|auto].
    rewrite (H2 x) by (simpl; auto). cbn [length]. lia.
  Qed.

  Lemma touches_In : forall h e l, touches h e l = true <-> exists f, In f (e_faces h e) /\ In f l.
  Proof.
    intros h e l. unfold touches. rewrite existsb_exists. split; intros (f & H1 & H2); exists f; split; auto.
    - destruct (in_dec Nat.eq_dec f l); [auto|discriminate].
    - destruct (in_dec Nat.eq_dec f l); auto.
  Qed.

  (** The metric counts every edge between the two parts twice. *)
  Lemma metric_value : forall h fs w zl zr L R, topo_ok h -> NoDup fs -> incl fs (g_faces h) ->
    zl <> zr ->
    (forall f, In f fs -> (In f L <-> w f = Some zl) /\ (In f R <-> w f = Some zr)) ->
    incl L fs -> incl R fs ->
    (forall f, In f (g_faces h) -> ~ In f fs -> w f <> Some zl /\ w f <> Some zr) ->
    list_sum (map (metric_face (set_f_zone h w) zl zr) fs) = 2 * cut_count h L R.
  Proof.
    intros h fs w zl zr L R Ht Hn Hi Hne Hw HL HR Hout.
    unfold metric_face. cbn [e_faces f_edges f_zone set_f_zone].
    set (p := fun e => match e_faces h e with
      | [ff; sf] => ozone_eqb (w ff) (Some zl) && ozone_eqb (w sf) (Some zr)
                    || ozone_eqb (w ff) (Some zr) && ozone_eqb (w sf) (Some zl)
      | _ => false end).
    change (list_sum (map (fun f => length (filter p (f_edges h f))) fs) = 2 * cut_count h L R).
    rewrite (list_sum_swap p (f_edges h) (g_edges h) fs).
    2:{ apply t_edges_nd; auto. }
    2:{ intros f Hf. destruct (t_face_edges h Ht f (Hi f Hf)) as (_ & ? & ?). auto. }
    assert (Oz : forall o z, ozone_eqb o (Some z) = true <-> o = Some z).
    { intros [x|] z; cbn; [rewrite Nat.eqb_eq|]; split; intro Hx; congruence. }
    assert (HinL : forall f, In f (g_faces h) -> (In f L <-> w f = Some zl)).
    { intros f Hf. destruct (in_dec Nat.eq_dec f fs) as [Hfs|Hfs]; [apply Hw; auto|].
      split; intro Hx; [exfalso; apply Hfs, HL; auto|]. destruct (Hout f Hf Hfs); contradiction. }
    assert (HinR : forall f, In f (g_faces h) -> (In f R <-> w f = Some zr)).
    { intros f Hf. destruct (in_dec Nat.eq_dec f fs) as [Hfs|Hfs]; [apply Hw; auto|].
      split; intro Hx; [exfalso; apply Hfs, HR; auto|]. destruct (Hout f Hf Hfs); contradiction. }
    unfold cut_count. apply list_sum_double.
    - intros e He. destruct (t_edge_faces h Ht e He) as (Hl & Hnd & Hif).
      apply eq_true_iff_eq. rewrite andb_true_iff, !touches_In. unfold p.
      destruct (e_faces h e) as [|a [|b [|c r]]] eqn:Ee; cbn in Hl; try lia.
      + split; [discriminate|]. intros [(f & [<-|[]] & HfL) (g & [<-|[]] & HgR)].
        assert (Ha : In a (g_faces h)) by (apply Hif; simpl; auto).
        apply HinL in HfL; auto. apply HinR in HgR; auto. congruence.
      + assert (Ha : In a (g_faces h)) by (apply Hif; simpl; auto).
        assert (Hb : In b (g_faces h)) by (apply Hif; simpl; auto).
        rewrite orb_true_iff, !andb_true_iff, !Oz.
        rewrite <- !HinL, <- !HinR by auto. split.
        * intros [[H1 H2]|[H1 H2]]; split; eexists; split; eauto; simpl; auto.
        * intros [(f & Hf & HfL) (g & Hg & HgR)]. cbn in Hf, Hg.
          assert (f <> g).
          { intro; subst g. assert (In f (g_faces h)) by (apply Hi, HL; auto).
            apply HinL in HfL; auto. apply HinR in HgR; auto. congruence. }
          destruct Hf as [<-|[<-|[]]], Hg as [<-|[<-|[]]]; tauto.
    - intros e He Hp. destruct (t_edge_faces h Ht e He) as (Hl & Hnd & Hif). unfold p in Hp.
      destruct (e_faces h e) as [|a [|b [|c r]]] eqn:Ee; try discriminate.
      assert (Ha : In a (g_faces h)) by (apply Hif; simpl; auto).
      assert (Hb : In b (g_faces h)) by (apply Hif; simpl; auto).
      rewrite orb_true_iff, !andb_true_iff, !Oz in Hp. rewrite <- !HinL, <- !HinR in Hp by auto.
      inv Hnd. cbn in H1.
      apply (filter_two _ fs a b); auto.
      + destruct Hp as [[? ?]|[? ?]]; auto.
      + destruct Hp as [[? ?]|[? ?]]; auto.
      + intros f Hf. rewrite <- (t_ef h Ht e f He (Hi f Hf)) at 1 || idtac.
        destruct (in_dec Nat.eq_dec e (f_edges h f)) as [Hin|Hin].
        * apply (t_ef h Ht e f He (Hi f Hf)) in Hin. rewrite Ee in Hin. cbn in Hin.
          split; auto. intros _. destruct Hin as [?|[?|[]]]; auto.
        * split; [discriminate|]. intros Hx. exfalso. apply Hin.
          apply (t_ef h Ht e f He (Hi f Hf)). rewrite Ee. cbn. destruct Hx; subst; auto.
  Qed.

  Lemma bind_new_zone : forall B nm (k : nat -> M B) h,
    bind (new_zone nm) k h = k (next_z h) (snd (new_zone nm h)).
  Proof. reflexivity. Qed.

  Lemma new_zone_facts : forall nm h, let h' := snd (new_zone nm h) in let z := next_z h in
    mesh h' = mesh h /\ f_zone h' = f_zone h /\ g_zones h' = g_zones h /\ g_name h' = g_name h /\
    next_z h' = S (next_z h) /\ z_faces h' z = [] /\ z_name h' z = nm /\ z_fixed h' z = false /\
    (forall y, y <> z -> z_faces h' y = z_faces h y /\ z_name h' y = z_name h y /\
       z_fixed h' y = z_fixed h y).
  Proof.
    intros nm h h' z. subst h' z. unfold new_zone. cbn.
    repeat (split; [rewrite ?upd_same; reflexivity|]).
    intros y Hy. rewrite !upd_other by auto. auto.
  Qed.

  Lemma set_g_zones_facts : forall h v, let h' := set_g_zones h v in
    mesh h' = mesh h /\ f_zone h' = f_zone h /\ z_faces h' = z_faces h /\ z_name h' = z_name h /\
    z_fixed h' = z_fixed h /\ next_z h' = next_z h /\ g_name h' = g_name h /\ g_zones h' = v.
  Proof. intros h v. repeat split. Qed.

  Section Order.
    Hypothesis Ho : order_ok.

    (** The sign function separates the faces: some face lies below the blade. *)
    Definition nondeg (h : heap) (fn : heap -> nat -> val) (fs : list nat) : Prop :=
      exists b f, blade_of h fn fs = Ok b /\ In f fs /\ vltb (fn h f) b = true.

    Lemma nondeg_dec : forall h fn fs, fs <> [] ->
      exists b, blade_of h fn fs = Ok b /\
        ((nondeg h fn fs /\ lefts h fn b fs <> []) \/
         (~ nondeg h fn fs /\ forall f, In f fs -> vltb (fn h f) b = false)).
    Proof.
      intros h fn fs Hne. destruct (blade_ok Ho h fn fs Hne) as (b & Eb & _).
      exists b. split; [auto|]. destruct (lefts h fn b fs) as [|f l] eqn:El.
      - right. assert (G : forall f, In f fs -> vltb (fn h f) b = false).
        { intros f Hf. destruct (vltb (fn h f) b) eqn:E; auto.
          assert (In f (lefts h fn b fs)) by (apply filter_In; auto). rewrite El in H. destruct H. }
        split; [|auto]. intros (b' & f & Eb' & Hf & Hlt). rewrite Eb in Eb'. inv Eb'.
        rewrite G in Hlt by auto. discriminate.
      - left. split; [|discriminate].
        assert (Hf : In f (lefts h fn b fs)) by (rewrite El; simpl; auto).
        apply filter_In in Hf as [Hf Hlt]. exists b, f. auto.
    Qed.

    Lemma metric_ok : forall h zone zl zr fn, mesh_sign fn -> topo_ok h ->
      let fs := z_faces h zone in
      fs <> [] -> NoDup fs -> incl fs (g_faces h) -> zl <> zr ->
      (forall f, In f (g_faces h) -> ~ In f fs -> f_zone h f <> Some zl /\ f_zone h f <> Some zr) ->
      exists b v, blade_of h fn fs = Ok b /\
        (forall f, ~ In f fs -> v f = f_zone h f) /\
        ((nondeg h fn fs /\
          split_zone_metric zone zl zr fn h =
            (Ok (Some (2 * cut_count h (lefts h fn b fs) (rights h fn b fs))), set_f_zone h v) /\
          (forall f, In f fs -> v f = Some zone)) \/
         (~ nondeg h fn fs /\ split_zone_metric zone zl zr fn h = (Ok None, set_f_zone h v) /\
          (forall f, In f fs -> v f = Some zr))).
    Proof.
      intros h zone zl zr fn Hm Ht fs Hne Hn Hi Hz Hout.
      destruct (nondeg_dec h fn fs Hne) as (b & Eb & Hcase). exists b.
      unfold split_zone_metric. rewrite bind_gets. fold fs.
      assert (E0 : (fun h => (blade_of h fn fs, h)) h = (Ok b, h)) by (cbv beta; rewrite Eb; auto).
      rewrite (bind_run _ _ _ _ _ _ _ E0).
      set (side := fun f => if vltb (fn h f) b then Some zl else Some zr).
      destruct (for_each_set_zone side fs h) as (w & E1 & W1 & W2).
      assert (E1' : for_each fs (fun f => s <- gets (fun h => fn h f) ;;
          (if vltb s b then set_zone f (Some zl) else set_zone f (Some zr))) h
          = (Ok tt, set_f_zone h w)).
      { rewrite <- E1. clear -Hm.
        assert (G : forall l h', mesh h' = mesh h ->
          for_each l (fun f => s <- gets (fun h => fn h f) ;;
            (if vltb s b then set_zone f (Some zl) else set_zone f (Some zr))) h'
          = for_each l (fun f => set_zone f (side f)) h').
        { induction l as [|f l IH]; intros h' Em; [reflexivity|]. cbn [for_each].
          rewrite bind_assoc, bind_gets. rewrite (Hm h h' f Em). unfold side at 1.
          destruct (vltb (fn h f) b); unfold set_zone at 1 2; rewrite !bind_modify; apply IH; auto. }
        apply G. auto. }
      rewrite (bind_run _ _ _ _ _ _ _ E1'). rewrite bind_gets. cbn [fst snd].
      set (h1 := set_f_zone h w).
      assert (El : filter (fun f => vltb (fn h1 f) b) fs = lefts h fn b fs).
      { apply filter_ext. intros f. rewrite (Hm h h1 f) by reflexivity. auto. }
      assert (Er : filter (fun f => negb (vltb (fn h1 f) b)) fs = rights h fn b fs).
      { apply filter_ext. intros f. rewrite (Hm h h1 f) by reflexivity. auto. }
      rewrite El, Er.
      destruct Hcase as [[Hnd Hl]|[Hnd Hall]].
      - assert (Hr : rights h fn b fs <> []).
        { destruct (blade_ok Ho h fn fs Hne) as (b' & Eb' & _ & g & Hg & Egb).
          rewrite Eb in Eb'. inv Eb'.
          intro Hc. assert (In g (rights h fn (fn h g) fs)).
          { apply filter_In. split; auto. rewrite (o_irr Ho). auto. }
          rewrite Hc in H. destruct H. }
        destruct (lefts h fn b fs) as [|l0 ls] eqn:Ell; [congruence|].
        destruct (rights h fn b fs) as [|r0 rs] eqn:Err; [congruence|].
        cbn [length Nat.eqb orb]. rewrite <- Ell, <- Err. rewrite bind_gets.
        assert (Ev : list_sum (map (metric_face h1 zl zr) fs) =
                     2 * cut_count h (lefts h fn b fs) (rights h fn b fs)).
        { apply metric_value; auto.
          - intros f Hf. unfold lefts, rights. rewrite !filter_In, (W1 f Hf). unfold side.
            destruct (vltb (fn h f) b); cbn; split; split; intros Hx; auto; try tauto;
              try (destruct Hx; discriminate); try congruence.
          - intros f Hf. apply filter_In in Hf. tauto.
          - intros f Hf. apply filter_In in Hf. tauto.
          - intros f Hf Hnf. rewrite W2 by auto. auto. }
        rewrite Ev.
        destruct (for_each_set_zone (fun _ => Some zone) fs h1) as (v & E2 & V1 & V2).
        exists v. split; [auto|]. split.
        { intros f Hf. rewrite V2 by auto. apply W2. auto. }
        left. split; [auto|]. rewrite (bind_run _ _ _ _ _ _ _ E2). split; [reflexivity|auto].
      - exists w. split; [auto|]. split; [auto|]. right. split; [auto|].
        assert (Hl : lefts h fn b fs = []).
        { apply filter_nil_none. auto. }
        rewrite Hl. cbn [length Nat.eqb orb]. split; [reflexivity|].
        intros f Hf. rewrite W1 by auto. unfold side. rewrite Hall by auto. auto.
    Qed.

    Lemma nondeg_mesh : forall h h' fn fs, mesh_sign fn -> mesh h' = mesh h ->
      (nondeg h' fn fs <-> nondeg h fn fs).
    Proof.
      intros h h' fn fs Hm Em. unfold nondeg. rewrite (blade_mesh h h') by auto.
      split; intros (b & f & H1 & H2 & H3); exists b, f; split; auto; split; auto.
      - rewrite <- (Hm h h' f Em). auto.
      - rewrite (Hm h h' f Em). auto.
    Qed.

    (** Value of the metric of one function. *)
    Definition metric_is (h : heap) (fs : list nat) (fn : heap -> nat -> val) (m : option nat) : Prop :=
      (nondeg h fn fs /\ exists b, blade_of h fn fs = Ok b /\
         m = Some (2 * cut_count h (lefts h fn b fs) (rights h fn b fs))) \/
      (~ nondeg h fn fs /\ m = None).

    Lemma metrics_ok : forall zone zl zr fs h, topo_ok h -> z_faces h zone = fs ->
      fs <> [] -> NoDup fs -> incl fs (g_faces h) -> zl <> zr ->
      forall fns u, Forall mesh_sign fns ->
      (forall f, In f (g_faces h) -> ~ In f fs -> u f <> Some zl /\ u f <> Some zr) ->
      exists ms v, map_each fns (fun fn => split_zone_metric zone zl zr fn) (set_f_zone h u)
          = (Ok ms, set_f_zone h v) /\
        Forall2 (metric_is h fs) fns ms /\
        (forall f, ~ In f fs -> v f = u f) /\
        (fns = [] \/ exists f0 fl, fns = f0 ++ [fl] /\
          ((nondeg h fl fs /\ forall f, In f fs -> v f = Some zone) \/
           (~ nondeg h fl fs /\ forall f, In f fs -> v f = Some zr))).
    Proof.
      intros zone zl zr fs h Ht Efs Hne Hn Hi Hz fns.
      induction fns as [|fn fns IH]; intros u Hm Hout.
      - exists [], u. split; [reflexivity|]. split; [constructor|]. split; auto.
      - inv Hm. cbn [map_each].
        destruct (metric_ok (set_f_zone h u) zone zl zr fn H1) as (b & v & Eb & Vo & Hc).
        { eapply topo_mesh; [|exact Ht]. reflexivity. }
        { exact Hne. } { exact Hn. } { exact Hi. } { exact Hz. } { exact Hout. }
        change (z_faces (set_f_zone h u) zone) with (z_faces h zone) in *.
        rewrite (blade_mesh h (set_f_zone h u)) in Eb by auto.
        rewrite (nondeg_mesh h (set_f_zone h u)) in Hc by auto.
        assert (Hm : exists m, split_zone_metric zone zl zr fn (set_f_zone h u) = (Ok m, set_f_zone h v) /\
                     metric_is h (z_faces h zone) fn m).
        { destruct Hc as [(Hd & E & _)|(Hd & E & _)].
          - eexists. split; [exact E|]. left. split; auto. exists b. split; auto.
            f_equal. f_equal. unfold cut_count, lefts, rights. f_equal.
            rewrite (filter_ext (fun f => vltb (fn (set_f_zone h u) f) b) (fun f => vltb (fn h f) b))
              by (intros; rewrite (H1 h (set_f_zone h u)) by reflexivity; auto).
            rewrite (filter_ext (fun f => negb (vltb (fn (set_f_zone h u) f) b))
                                (fun f => negb (vltb (fn h f) b)))
              by (intros; rewrite (H1 h (set_f_zone h u)) by reflexivity; auto).
            reflexivity.
          - eexists. split; [exact E|]. right. auto. }
        destruct Hm as (m & Em & Hmi). rewrite (bind_run _ _ _ _ _ _ _ Em).
        destruct (IH v H2) as (ms & v' & E' & F2 & Vo' & Hlast).
        { intros f Hf Hnf. rewrite Vo by auto. apply Hout; auto. }
        rewrite (bind_run _ _ _ _ _ _ _ E').
        exists (m :: ms), v'. split; [reflexivity|]. split; [constructor; auto|].
        split. { intros f Hf. rewrite Vo' by auto. apply Vo. auto. }
        right. destruct Hlast as [->|(f0 & fl & -> & Hl)].
        + exists [], fn. split; auto. cbn in E'. inv E'.
          destruct Hc as [(Hd & _ & Hv)|(Hd & _ & Hv)]; auto.
        + exists (fn :: f0), fl. split; auto.
    Qed.

    Lemma min_metric_ok : forall ms, ms <> [] -> exists mm, min_metric ms = Ok mm /\ In mm ms /\
      (forall m, In m ms -> metric_leb mm m = true).
    Proof.
      assert (T : forall a b c, metric_leb a b = true -> metric_leb b c = true -> metric_leb a c = true).
      { intros [a|] [b|] [c|]; cbn; auto; try discriminate. intros H1 H2.
        apply Nat.leb_le in H1. apply Nat.leb_le in H2. apply Nat.leb_le. lia. }
      assert (R : forall a, metric_leb a a = true).
      { intros [a|]; cbn; auto. apply Nat.leb_refl. }
      intros ms. induction ms as [|m ms IH]; [congruence|]. intros _.
      destruct ms as [|m' ms].
      - exists m. split; auto. split; [simpl; auto|]. intros x [<-|[]]. auto.
      - destruct IH as (mm & E & Hin & Hle); [discriminate|].
        change (min_metric (m :: m' :: ms)) with
          (do b <- min_metric (m' :: ms); Ok (if metric_leb m b then m else b)).
        rewrite E. cbn [rbind]. eexists. split; [reflexivity|].
        destruct (metric_leb m mm) eqn:El.
        + split; [simpl; auto|]. intros x [<-|Hx]; auto. eapply T; eauto.
        + split; [right; auto|]. intros x [<-|Hx]; auto.
          destruct m as [a|], mm as [c|]; cbn in *; auto; try discriminate.
          apply Nat.leb_gt in El. apply Nat.leb_le. lia.
    Qed.

    Lemma metric_eqb_eq : forall a b, metric_eqb a b = true <-> a = b.
    Proof.
      intros [a|] [b|]; cbn; try (split; congruence). rewrite Nat.eqb_eq. split; congruence.
    Qed.

    Lemma zone_add_face_bad : forall z f z0 h, f_zone h f = Some z0 -> z_faces h z0 = [] ->
      exists h', zone_add_face z f h = (Raise EValueError, h').
    Proof.
      intros z f z0 h Hz Hf. unfold zone_add_face. rewrite bind_gets, Hz.
      unfold unlink_from_zone. rewrite bind_assoc, bind_gets, Hz.
      unfold zone_remove_face. rewrite !bind_assoc, bind_gets, Hf. cbn [remove1].
      eexists. reflexivity.
    Qed.

    Definition others_same (h h' : heap) (zone : nat) : Prop :=
      forall z, z < next_z h -> z <> zone ->
        z_faces h' z = z_faces h z /\ z_name h' z = z_name h z /\ z_fixed h' z = z_fixed h z.

    (** The part of split_zone after the two new zones are in place. *)
    Definition split_tail (zone zl zr : nat) (fns : list (heap -> nat -> val)) : M unit :=
      metrics <- map_each fns (fun fn => split_zone_metric zone zl zr fn) ;;
      mm <- lift (min_metric metrics) ;;
      match mm with
      | None => zones_remove zone ;;; append_zone zone
      | Some _ =>
          match index_of (metric_eqb mm) metrics with
          | None => raise EValueError
          | Some k =>
              fn <- lift (py_get fns (Z.of_nat k)) ;;
              fs <- gets (fun h => z_faces h zone) ;;
              blade <- (fun h => (blade_of h fn fs, h)) ;;
              l_faces <- gets (fun h => filter (fun f => vltb (fn h f) blade) fs) ;;
              r_faces <- gets (fun h => filter (fun f => negb (vltb (fn h f) blade)) fs) ;;
              for_each l_faces (fun f => zone_add_face zl f) ;;;
              for_each r_faces (fun f => zone_add_face zr f)
          end
      end.

    Lemma remove1_mid : forall z pre post, ~ In z pre ->
      remove1 (Nat.eqb z) (pre ++ z :: post) = Some (pre ++ post).
    Proof.
      intros z pre post. induction pre as [|x pre IH]; intros H; cbn.
      - rewrite Nat.eqb_refl. auto.
      - destruct (Nat.eqb_spec z x) as [->|Hne]; [exfalso; apply H; simpl; auto|].
        rewrite IH; auto. intro; apply H; simpl; auto.
    Qed.

    Lemma split_head : forall fns h zone pre post, g_zones h = pre ++ zone :: post -> ~ In zone pre ->
      z_fixed h zone = false -> 2 <= length (z_faces h zone) ->
      let zl := next_z h in let zr := S (next_z h) in
      exists h2, split_zone zone fns h = split_tail zone zl zr fns h2 /\
        mesh h2 = mesh h /\ f_zone h2 = f_zone h /\
        (forall z, z < next_z h -> z_faces h2 z = z_faces h z /\ z_name h2 z = z_name h z /\
           z_fixed h2 z = z_fixed h z) /\
        z_faces h2 zl = [] /\ z_faces h2 zr = [] /\
        z_name h2 zl = z_name h zone ++ lit "l" /\ z_name h2 zr = z_name h zone ++ lit "r" /\
        z_fixed h2 zl = false /\ z_fixed h2 zr = false /\ next_z h2 = S (S (next_z h)) /\
        g_name h2 = g_name h /\ g_zones h2 = (pre ++ post) ++ [zl; zr].
    Proof.
      intros fns h zone pre post Egz Hpre Hfx Hlen zl zr.
      unfold split_zone. rewrite bind_gets, Hfx, bind_gets.
      destruct (Nat.ltb_spec (length (z_faces h zone)) 2) as [Hc|_]; [lia|].
      rewrite bind_gets.
      rewrite bind_new_zone, bind_new_zone.
      destruct (new_zone_facts (z_name h zone ++ lit "l") h)
        as (A1 & A2 & A3 & A4 & A5 & A6 & A7 & A8 & A9).
      set (ha := snd (new_zone (z_name h zone ++ lit "l") h)) in *. clearbody ha.
      destruct (new_zone_facts (z_name h zone ++ lit "r") ha)
        as (B1 & B2 & B3 & B4 & B5 & B6 & B7 & B8 & B9).
      set (h1 := snd (new_zone (z_name h zone ++ lit "r") ha)) in *. clearbody h1.
      rewrite A5 in *. fold zr in B5, B6, B7, B8, B9 |- *. fold zl in A6, A7, A8, A9 |- *.
      assert (M1 : mesh h1 = mesh h) by congruence.
      assert (Fz1 : f_zone h1 = f_zone h) by congruence.
      assert (Zf1 : forall z, z < next_z h -> z_faces h1 z = z_faces h z /\ z_name h1 z = z_name h z /\
                     z_fixed h1 z = z_fixed h z).
      { intros z Hlz.
        destruct (A9 z) as (<- & <- & <-); [unfold zl; lia|]. apply B9. unfold zr. lia. }
      assert (Zn1 : z_faces h1 zl = [] /\ z_faces h1 zr = [] /\
        z_name h1 zl = z_name h zone ++ lit "l" /\ z_name h1 zr = z_name h zone ++ lit "r" /\
        z_fixed h1 zl = false /\ z_fixed h1 zr = false /\ next_z h1 = S (S (next_z h)) /\
        g_name h1 = g_name h).
      { destruct (B9 zl) as (-> & -> & ->); [unfold zl, zr; lia|].
        do 7 (split; [first [exact A6|exact B6|exact A7|exact B7|exact A8|exact B8|exact B5]|]).
        rewrite B4. exact A4. }
      assert (Gz1' : g_zones h1 = g_zones h) by (rewrite B3; exact A3).
      assert (Gz1 : g_zones h1 = pre ++ zone :: post) by congruence.
      clear A1 A2 A3 A4 A5 A6 A7 A8 A9 B1 B2 B3 B4 B5 B6 B7 B8 B9.
      destruct Zn1 as (Zl1 & Zr1 & Nl1 & Nr1 & Xl1 & Xr1 & Nz1 & Gn1).
      unfold zones_remove, append_zone. rewrite bind_assoc, bind_gets, Gz1. rewrite (remove1_mid zone pre post Hpre).
      set (rest := pre ++ post). rewrite bind_modify.
      rewrite !bind_modify. cbn [g_zones set_g_zones].
      destruct (set_g_zones_facts h1 rest) as (C1 & C2 & C3 & C4 & C5 & C6 & C7 & _).
      set (ha2 := set_g_zones h1 rest) in *. clearbody ha2.
      destruct (set_g_zones_facts ha2 (rest ++ [zl])) as (D1 & D2 & D3 & D4 & D5 & D6 & D7 & _).
      set (ha3 := set_g_zones ha2 (rest ++ [zl])) in *. clearbody ha3.
      destruct (set_g_zones_facts ha3 ((rest ++ [zl]) ++ [zr])) as (E1 & E2 & E3 & E4 & E5 & E6 & E7 & E8).
      set (h2 := set_g_zones ha3 ((rest ++ [zl]) ++ [zr])) in *. clearbody h2.
      exists h2. split; [reflexivity|].
      rewrite E1, D1, C1, E2, D2, C2, E3, D3, C3, E4, D4, C4, E5, D5, C5, E6, D6, C6, E7, D7, C7, E8.
      rewrite <- app_assoc. split; [exact M1|]. split; [exact Fz1|]. split; [exact Zf1|].
      split; [exact Zl1|]. split; [exact Zr1|]. split; [exact Nl1|]. split; [exact Nr1|].
      split; [exact Xl1|]. split; [exact Xr1|]. split; [exact Nz1|]. split; [exact Gn1|]. reflexivity.
    Qed.

    Lemma split_zone_main : forall fns h zone pre post, Forall mesh_sign fns -> topo_ok h -> zones_ok h ->
      g_zones h = pre ++ zone :: post -> z_fixed h zone = false -> 2 <= length (z_faces h zone) ->
      let fs := z_faces h zone in
      let zl := next_z h in
      let zr := S (next_z h) in
      (exists f0 fl, fns = f0 ++ [fl] /\ nondeg h fl fs /\
        exists h' fn b, split_zone zone fns h = (Ok tt, h') /\
          In fn fns /\ blade_of h fn fs = Ok b /\ nondeg h fn fs /\
          (forall fn' b', In fn' fns -> nondeg h fn' fs -> blade_of h fn' fs = Ok b' ->
             cut_count h (lefts h fn b fs) (rights h fn b fs) <=
             cut_count h (lefts h fn' b' fs) (rights h fn' b' fs)) /\
          mesh h' = mesh h /\ g_name h' = g_name h /\ next_z h' = S (S (next_z h)) /\
          g_zones h' = (pre ++ post) ++ [zl; zr] /\
          z_faces h' zl = lefts h fn b fs /\ z_faces h' zr = rights h fn b fs /\
          z_name h' zl = z_name h zone ++ lit "l" /\ z_name h' zr = z_name h zone ++ lit "r" /\
          z_fixed h' zl = false /\ z_fixed h' zr = false /\
          others_same h h' zone /\ zones_ok h')
      \/ ((forall f0 fl, fns = f0 ++ [fl] -> ~ nondeg h fl fs) /\
          exists h', split_zone zone fns h = (Raise EValueError, h')).
    Proof.
      intros fns h zone pre post Hms Ht Hz Egz Hfx Hlen fs zl zr.
      assert (Hzin : In zone (g_zones h)) by (rewrite Egz; apply in_or_app; simpl; auto).
      assert (Hnr : ~ In zone (pre ++ post)).
      { apply NoDup_remove_2. rewrite <- Egz. apply (zo_nd h Hz). }
      assert (Hndr : NoDup (pre ++ post)).
      { apply (NoDup_remove_1 _ _ zone). rewrite <- Egz. apply (zo_nd h Hz). }
      assert (Hpre : ~ In zone pre) by (intro; apply Hnr; apply in_or_app; auto).
      assert (Hzlt : zone < next_z h) by (apply (zo_alloc h Hz); auto).
      assert (Hnd : NoDup fs) by (apply (zo_faces_nd h Hz); auto).
      assert (Hfs : forall f, In f fs <-> In f (g_faces h) /\ f_zone h f = Some zone)
        by (intros f; apply (zo_faces h Hz); auto).
      assert (Hne : fs <> []) by (unfold fs; destruct (z_faces h zone); [cbn in Hlen; lia|discriminate]).
      assert (Hlt : forall f z, In f (g_faces h) -> f_zone h f = Some z -> In z (g_zones h) /\ z < next_z h).
      { intros f z Hf Ef. destruct (zo_cover h Hz f Hf) as (z' & Hz' & Ez').
        assert (z' = z) by congruence. subst. split; auto. apply (zo_alloc h Hz); auto. }
      destruct (split_head fns h zone pre post Egz Hpre Hfx Hlen)
        as (h2 & Esp & M2 & Hu & Zf1 & Zl1 & Zr1 & Nl1 & Nr1 & Xl1 & Xr1 & Nz1 & Gn1 & Gz2).
      assert (Hsplit : forall z, In z (g_zones h) <-> z = zone \/ In z (pre ++ post)).
      { intros z. rewrite Egz, !in_app_iff. cbn [In]. intuition. }
      clear Egz. set (rest := pre ++ post) in *. clearbody rest.
      fold zl in Esp, Zl1, Nl1, Xl1, Gz2. fold zr in Esp, Zr1, Nr1, Xr1, Gz2.
      rewrite Esp. clear Esp. unfold split_tail.
      assert (Ezz : z_faces h2 zone = fs) by (destruct (Zf1 zone Hzlt) as (E & _); exact E).
      assert (Gf2 : g_faces h2 = g_faces h) by (apply mesh_fields in M2; decompose [and] M2; auto).
      assert (Hneq : zl <> zr) by (unfold zl, zr; lia).
      destruct (metrics_ok zone zl zr fs h2) with (fns := fns) (u := f_zone h2)
        as (ms & v & Em & F2 & Vo & Hlast); auto.
      { eapply topo_mesh; eauto. }
      { intros f Hf. rewrite Gf2. apply Hfs. auto. }
      { rewrite Gf2, Hu. intros f Hf _. unfold zl, zr.
        split; intro Hc; apply Hlt in Hc; auto; lia. }
      rewrite set_f_zone_id in Em.
      rewrite (bind_run _ _ _ _ _ _ _ Em).
      assert (M3 : mesh (set_f_zone h2 v) = mesh h) by (rewrite <- M2; reflexivity).
      assert (H3 : z_faces (set_f_zone h2 v) = z_faces h2 /\ z_name (set_f_zone h2 v) = z_name h2 /\
        z_fixed (set_f_zone h2 v) = z_fixed h2 /\ next_z (set_f_zone h2 v) = next_z h2 /\
        g_name (set_f_zone h2 v) = g_name h2 /\ g_zones (set_f_zone h2 v) = g_zones h2 /\
        f_zone (set_f_zone h2 v) = v) by (repeat split).
      clear Em. set (h3 := set_f_zone h2 v) in *. clearbody h3.
      destruct H3 as (Zf3 & Zn3 & Fx3 & Nz3 & Gn3 & Gz3 & Fz3).
      destruct fns as [|fn0 fns0] eqn:Efns.
      { right. split; [intros f0 fl Hc; destruct f0; discriminate|].
        inv F2. exists h3. reflexivity. }
      rewrite <- Efns in *.
      destruct Hlast as [Hc|(f0 & fl & Ef & Hl)]; [congruence|].
      assert (Hms0 : ms <> []) by (rewrite Efns in F2; inv F2; discriminate).
      destruct (min_metric_ok ms Hms0) as (mm & Emm & Hmin & Hmle).
      rewrite Emm, bind_lift_ok.
      assert (Hmesh : forall fn, In fn fns -> mesh_sign fn)
        by (intros fn Hf; rewrite Forall_forall in Hms; auto).
      assert (Fl : In fl fns) by (rewrite Ef; apply in_or_app; simpl; auto).
      assert (Hnd' : forall fn, In fn fns -> (nondeg h2 fn fs <-> nondeg h fn fs))
        by (intros fn Hf; apply nondeg_mesh; auto).
      assert (Hbl' : forall h' fn, In fn fns -> mesh h' = mesh h -> blade_of h' fn fs = blade_of h fn fs)
        by (intros h' fn Hf Em'; apply blade_mesh; auto).
      rewrite Hnd' in Hl by auto.
      assert (Hcut : forall fn b, In fn fns ->
        cut_count h2 (lefts h2 fn b fs) (rights h2 fn b fs) =
        cut_count h (lefts h fn b fs) (rights h fn b fs)).
      { intros fn b Hf. unfold cut_count, touches, lefts, rights.
        apply mesh_fields in M2 as M2'. destruct M2' as (_&_&_&_&_&_&_&_&Eef&_&_&_&_&_&Ege&_).
        rewrite Eef, Ege.
        rewrite (filter_ext (fun f => vltb (fn h2 f) b) (fun f => vltb (fn h f) b))
          by (intros; rewrite (Hmesh fn Hf h h2) by auto; auto).
        rewrite (filter_ext (fun f => negb (vltb (fn h2 f) b)) (fun f => negb (vltb (fn h f) b)))
          by (intros; rewrite (Hmesh fn Hf h h2) by auto; auto). auto. }
      destruct mm as [mv|].
      2:{ (* all metrics are infinite *)
        right. split.
        - intros f0' fl' Ef' Hd.
          assert (Fl' : In fl' fns) by (rewrite Ef'; apply in_or_app; simpl; auto).
          apply (In_nth_error) in Fl' as (k & Hk).
          destruct (Forall2_nth_error_l _ _ _ _ _ F2 Hk) as (m & Hm & Hmi) ||
          (assert (exists m, nth_error ms k = Some m /\ metric_is h2 fs fl' m) as (m & Hm & Hmi)).
          { clear -F2 Hk. revert k Hk. induction F2; intros [|k] Hk; cbn in *; try discriminate.
            - inv Hk. eauto.
            - eauto. }
          assert (Hm' := Hmle m (nth_error_In _ _ Hm)).
          destruct Hmi as [(_ & b & _ & ->)|(Hnd2 & _)]; [discriminate|].
          apply Hnd2. apply Hnd'; auto. eapply nth_error_In; eauto.
        - assert (Hnotin : ~ In zone (g_zones h2)).
          { rewrite Gz2. intro Hc.
            apply in_app_or in Hc as [Hc|[Hc|[Hc|[]]]]; [|unfold zl in Hc; lia|unfold zr in Hc; lia].
            contradiction. }
          unfold zones_remove. rewrite bind_assoc, bind_gets, Gz3.
          replace (remove1 (Nat.eqb zone) (g_zones h2)) with (@None (list nat)).
          2:{ symmetry. apply remove1_None. apply not_true_is_false. rewrite existsb_exists.
              intros (x & Hx & Ex). apply Nat.eqb_eq in Ex. subst. contradiction. }
          eexists. reflexivity. }
      destruct (index_of (metric_eqb (Some mv)) ms) as [k|] eqn:Ek.
      2:{ exfalso. apply index_of_None in Ek. apply not_true_iff_false in Ek. apply Ek.
          rewrite existsb_exists. exists (Some mv). split; auto. apply metric_eqb_eq. auto. }
      apply index_of_Some in Ek as (m & Hkm & Em'). apply metric_eqb_eq in Em'. subst m.
      assert (exists fn, nth_error fns k = Some fn /\ metric_is h2 fs fn (Some mv)) as (fn & Hkf & Hmi).
      { clear -F2 Hkm. revert k Hkm. induction F2; intros [|k] Hk; cbn in *; try discriminate.
        - inv Hk. eauto.
        - eauto. }
      assert (Hfn : In fn fns) by (eapply nth_error_In; eauto).
      rewrite (py_get_nat _ _ _ _ Hkf), bind_lift_ok, bind_gets.
      rewrite Zf3, Ezz.
      destruct Hmi as [(Hndf & b & Eb2 & Emv)|(_ & Hc)]; [|discriminate].
      assert (Eb : blade_of h fn fs = Ok b) by (rewrite <- (Hbl' h2) by auto; auto).
      assert (E3 : (fun h => (blade_of h fn fs, h)) h3 = (Ok b, h3)).
      { cbv beta. rewrite (Hbl' h3), Eb by auto. auto. }
      rewrite (bind_run _ _ _ _ _ _ _ E3). rewrite !bind_gets.
      assert (El : filter (fun f => vltb (fn h3 f) b) fs = lefts h fn b fs).
      { apply filter_ext. intros f. rewrite (Hmesh fn Hfn h h3 f M3). auto. }
      assert (Er : filter (fun f => negb (vltb (fn h3 f) b)) fs = rights h fn b fs).
      { apply filter_ext. intros f. rewrite (Hmesh fn Hfn h h3 f M3). auto. }
      rewrite El, Er.
      assert (Hndfn : nondeg h fn fs) by (apply Hnd'; auto).
      assert (Hlne : lefts h fn b fs <> []).
      { destruct Hndfn as (b' & f & Eb' & Hf & Hlt'). rewrite Eb in Eb'. inv Eb'.
        intro Hc. assert (In f (lefts h fn b' fs)) by (apply filter_In; auto). rewrite Hc in H. destruct H. }
      destruct Hl as [[Hdl Hv]|[Hdl Hv]].
      2:{ (* the last function was degenerate: the faces still point to zr *)
        right. split.
        - intros f0' fl' Ef'. rewrite Ef in Ef'. apply app_inj_tail in Ef' as [_ <-]. auto.
        - destruct (lefts h fn b fs) as [|f ls] eqn:Ell; [congruence|].
          assert (Hff : In f fs).
          { assert (Hx : In f (lefts h fn b fs)) by (rewrite Ell; simpl; auto).
            apply filter_In in Hx. tauto. }
          cbn [for_each].
          destruct (zone_add_face_bad zl f zr h3) as (h4 & E4).
          { rewrite Fz3. apply Hv. auto. }
          { rewrite Zf3. auto. }
          rewrite !bind_assoc. rewrite (bind_raise _ _ _ _ _ _ _ E4). eexists. reflexivity. }
      left. exists f0, fl. split; [auto|]. split; [auto|].
      set (ps := map (fun f => (zl, f)) (lefts h fn b fs) ++ map (fun f => (zr, f)) (rights h fn b fs)).
      assert (Eps : map snd ps = lefts h fn b fs ++ rights h fn b fs).
      { unfold ps. rewrite map_app, !map_map. cbn. rewrite !map_id. auto. }
      assert (Hpsin : forall f, In f (map snd ps) <-> In f fs).
      { intros f. rewrite Eps, in_app_iff. unfold lefts, rights. rewrite !filter_In.
        destruct (vltb (fn h f) b); cbn; split; intuition discriminate. }
      destruct (assign_ok (fun z => z = zl \/ z = zr) ps h3) as (h4 & E4 & F4 & A1 & A2 & A3 & A4).
      { intros z f Hp. unfold ps in Hp. apply in_app_or in Hp as [Hp|Hp];
          apply in_map_iff in Hp as (x & Ex & _); inv Ex; auto. }
      { rewrite Eps. apply NoDup_app_intro.
        - apply NoDup_filter; auto.
        - apply NoDup_filter; auto.
        - intros f H1 H2. apply filter_In in H1 as [_ H1]. apply filter_In in H2 as [_ H2].
          rewrite H1 in H2. discriminate. }
      { intros f z0 Hf Ez. apply Hpsin in Hf. rewrite Fz3, Hv in Ez by auto. inv Ez.
        split; [unfold zl, zr; lia|]. rewrite Zf3, Ezz. auto. }
      assert (Zfl : z_faces h4 zl = lefts h fn b fs).
      { rewrite A1 by auto. rewrite Zf3, Zl1. cbn [app].
        unfold ps. rewrite faces_for_app, faces_for_const_same, faces_for_const_other by auto.
        apply app_nil_r. }
      assert (Zfr : z_faces h4 zr = rights h fn b fs).
      { rewrite A1 by auto. rewrite Zf3, Zr1. cbn [app].
        unfold ps. rewrite faces_for_app, faces_for_const_same, faces_for_const_other by auto. auto. }
      assert (Zfo : forall z, z < next_z h -> z <> zone -> z_faces h4 z = z_faces h z).
      { intros z Hlz Hzz. rewrite A4.
        - rewrite Zf3. apply Zf1. auto.
        - unfold zl, zr. lia.
        - intros f Hf. apply Hpsin in Hf. rewrite Fz3, Hv by auto. congruence. }
      pose proof (frameZ_fields _ _ F4) as (M4 & Gz4 & Gf4 & Nz4 & Fx4 & Zn4 & Gn4 & _).
      assert (Gz : g_zones h4 = rest ++ [zl; zr]).
      { rewrite Gz4, Gz3. exact Gz2. }
      assert (Efz : forall f, In f fs -> f_zone h4 f = if vltb (fn h f) b then Some zl else Some zr).
      { intros f Hf. destruct (vltb (fn h f) b) eqn:Elt.
        - apply A2. apply in_or_app. left. apply in_map_iff. exists f. split; auto. apply filter_In. auto.
        - apply A2. apply in_or_app. right. apply in_map_iff. exists f. split; auto.
          apply filter_In. rewrite Elt. auto. }
      assert (Efo : forall f, ~ In f fs -> f_zone h4 f = f_zone h f).
      { intros f Hf. rewrite A3 by (rewrite Hpsin; auto). rewrite Fz3, Vo by auto. congruence. }
      exists h4, fn, b.
      split.
      { unfold ps in E4. rewrite assign_app in E4. rewrite <- E4. unfold bind.
        rewrite assign_const. destruct (assign _ h3) as [[[]|e] h3']; [|reflexivity].
        apply assign_const. }
      split; [auto|]. split; [auto|]. split; [auto|].
      split.
      { intros fn' b' Hf' Hn' Eb'.
        apply In_nth_error in Hf' as (k' & Hk').
        assert (exists m, nth_error ms k' = Some m /\ metric_is h2 fs fn' m) as (m & Hm & Hmi).
        { clear -F2 Hk'. revert k' Hk'. induction F2; intros [|k'] Hk; cbn in *; try discriminate.
          - inv Hk. eauto.
          - eauto. }
        apply nth_error_In in Hk'. specialize (Hmle m (nth_error_In _ _ Hm)).
        destruct Hmi as [(_ & b'' & Eb'' & ->)|(Hnd2 & _)].
        2:{ exfalso. apply Hnd2. apply Hnd'; auto. }
        rewrite (Hbl' h2) in Eb'' by auto. assert (b'' = b') by congruence. subst b''.
        inv Emv. rewrite !Hcut in Hmle by auto. unfold metric_leb in Hmle.
        apply Nat.leb_le in Hmle. lia. }
      split; [congruence|].
      split; [rewrite Gn4; rewrite Gn3; auto|].
      split; [rewrite Nz4; rewrite Nz3; auto|].
      split; [auto|]. split; [auto|]. split; [auto|].
      split; [rewrite Zn4; rewrite Zn3; auto|].
      split; [rewrite Zn4; rewrite Zn3; auto|].
      split; [rewrite Fx4; rewrite Fx3; auto|].
      split; [rewrite Fx4; rewrite Fx3; auto|].
      split.
      { intros z Hlz Hzz. split; [auto|]. rewrite Zn4, Fx4.
        rewrite Zn3. rewrite Fx3.
        destruct (Zf1 z Hlz) as (_ & ? & ?). auto. }
      assert (Hrest : forall z, In z rest -> In z (g_zones h) /\ z <> zone /\ z < next_z h).
      { intros z Hr. assert (In z (g_zones h)) by (apply Hsplit; auto).
        split; auto. split; [intro; subst; contradiction|]. apply (zo_alloc h Hz); auto. }
      assert (Gfh : g_faces h4 = g_faces h).
      { rewrite Gf4. apply mesh_fields in M3. decompose [and] M3. auto. }
      constructor; rewrite ?Gz, ?Gfh.
      - apply NoDup_app_intro.
        + auto.
        + constructor; [intros [?|[]]; congruence|]. constructor; [intros []|constructor].
        + intros z Hr [<-|[<-|[]]]; apply Hrest in Hr; unfold zl, zr in Hr; lia.
      - intros z Hin. rewrite Nz4. rewrite Nz3. rewrite Nz1.
        apply in_app_or in Hin as [Hr|[<-|[<-|[]]]]; [apply Hrest in Hr; lia|unfold zl; lia|unfold zr; lia].
      - intros z Hin. apply in_app_or in Hin as [Hr|[<-|[<-|[]]]].
        + destruct (Hrest z Hr) as (Hz1 & Hz2 & Hz3). rewrite Zfo by auto. apply (zo_faces_nd h Hz). auto.
        + rewrite Zfl. apply NoDup_filter. auto.
        + rewrite Zfr. apply NoDup_filter. auto.
      - intros z f Hin. destruct (in_dec Nat.eq_dec f fs) as [Hf|Hf].
        + assert (Hfg : In f (g_faces h)) by (apply Hfs; auto).
          rewrite (Efz f Hf). apply in_app_or in Hin as [Hr|[<-|[<-|[]]]].
          * destruct (Hrest z Hr) as (Hz1 & Hz2 & Hz3). rewrite Zfo by auto.
            rewrite (zo_faces h Hz z f Hz1). apply Hfs in Hf as [_ Hf].
            split; [intros [_ ?]; congruence|].
            destruct (vltb (fn h f) b); intros [_ Hx]; inv Hx; unfold zl, zr in *; lia.
          * rewrite Zfl. unfold lefts. rewrite filter_In.
            destruct (vltb (fn h f) b); split; intros [? ?]; split; auto; congruence.
          * rewrite Zfr. unfold rights. rewrite filter_In.
            destruct (vltb (fn h f) b); cbn; split; intros [? ?]; split; auto; congruence.
        + rewrite (Efo f Hf). apply in_app_or in Hin as [Hr|[<-|[<-|[]]]].
          * destruct (Hrest z Hr) as (Hz1 & Hz2 & Hz3). rewrite Zfo by auto. apply (zo_faces h Hz). auto.
          * rewrite Zfl. split; [intro Hx; apply filter_In in Hx; tauto|].
            intros [Hg Hx]. apply Hlt in Hx; auto. unfold zl in Hx. lia.
          * rewrite Zfr. split; [intro Hx; apply filter_In in Hx; tauto|].
            intros [Hg Hx]. apply Hlt in Hx; auto. unfold zr in Hx. lia.
      - intros f Hfg. destruct (in_dec Nat.eq_dec f fs) as [Hf|Hf].
        + rewrite (Efz f Hf). destruct (vltb (fn h f) b).
          * exists zl. split; auto. apply in_or_app. simpl; auto.
          * exists zr. split; auto. apply in_or_app. simpl; auto.
        + rewrite (Efo f Hf). destruct (zo_cover h Hz f Hfg) as (z & Hzz & Ez).
          exists z. split; auto. apply in_or_app. left. apply Hsplit in Hzz.
          destruct Hzz as [->|Hr]; auto. exfalso. apply Hf. apply Hfs. auto.
    Qed.
  End Order.
End Split.
