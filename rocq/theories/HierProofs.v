(** Hierarchical decomposition. *)

From Coq Require Import ZArith NArith Ascii String Bool Lia List Permutation.
From Verif Require Import Py PyLemmas Heap HeapLemmas GridModel GridSpec DecompProofs AssignProofs
  SimpleDecomp PartialZones SortProofs SplitProofs.
Import ListNotations.
Open Scope list_scope.

Section Hier.
  Context {F : FloatOps}.
  Hypothesis Ho : order_ok.

  Lemma lefts_rights_perm : forall h fn b fs,
    Permutation (lefts h fn b fs ++ rights h fn b fs) fs.
  Proof.
    intros h fn b fs. unfold lefts, rights. induction fs as [|f fs IH]; cbn; auto.
    destruct (vltb (fn h f) b); cbn.
    - constructor. auto.
    - eapply perm_trans; [apply Permutation_sym, Permutation_middle|]. constructor. auto.
  Qed.

  Lemma signs_differ_nondeg : forall h fn fs, NoDup fs -> 2 <= length fs ->
    signs_differ (fn h) fs -> nondeg h fn fs.
  Proof.
    intros h fn fs Hn Hl Hd.
    destruct (blade_ok Ho h fn fs) as (b & Eb & _); [destruct fs; [cbn in Hl; lia|discriminate]|].
    pose proof (blade_distinct Ho h fn fs b Hn Hd Eb) as Hc.
    assert (1 <= length fs / 2) by (apply Nat.div_le_lower_bound; lia).
    destruct (filter (fun f => vltb (fn h f) b) fs) as [|f l] eqn:E; [cbn [length] in Hc; lia|].
    assert (Hf : In f (filter (fun f => vltb (fn h f) b) fs)) by (rewrite E; simpl; auto).
    apply filter_In in Hf as [Hf Hlt]. exists b, f. auto.
  Qed.

  Section Run.
    (** [h0] is the grid before the decomposition, [K] the kept zones. *)
    Variable h0 : heap.
    Variable K : list nat.
    Variable fns : list (heap -> nat -> val).
    Hypothesis Hms : Forall mesh_sign fns.
    Hypothesis Ht0 : topo_ok h0.

    (** Faces outside the kept zones. *)
    Definition loose (f : nat) : Prop :=
      In f (g_faces h0) /\ forall k, In k K -> ~ In f (z_faces h0 k).

    Definition differ (fn : heap -> nat -> val) : Prop :=
      forall f g, loose f -> loose g -> f <> g ->
        vltb (fn h0 f) (fn h0 g) = true \/ vltb (fn h0 g) (fn h0 f) = true.

    Definition last_differs : Prop := exists f0 fl, fns = f0 ++ [fl] /\ differ fl.
    Definition all_differ : Prop := Forall differ fns.

    Record hst (h : heap) : Prop := {
      hs_mesh : mesh h = mesh h0;
      hs_zones : zones_ok h;
      hs_kept : forall z, In z K -> In z (g_zones h) /\ z_faces h z = z_faces h0 z /\
                  z_name h z = z_name h0 z /\ z_fixed h z = true;
      hs_new : forall z, In z (g_zones h) -> ~ In z K -> z_fixed h z = false
    }.

    (** What becomes of one zone: itself, or two parts. *)
    Definition out_ok (hs hf : heap) (z : nat) (out : list nat) : Prop :=
      ((z_fixed hs z = true \/ length (z_faces hs z) < 2) /\ out = [z] /\
         z_faces hf z = z_faces hs z /\ z_name hf z = z_name hs z /\ z_fixed hf z = z_fixed hs z) \/
      (z_fixed hs z = false /\ 2 <= length (z_faces hs z) /\
       exists zl zr fn b, out = [zl; zr] /\ In fn fns /\
         blade_of h0 fn (z_faces hs z) = Ok b /\ nondeg h0 fn (z_faces hs z) /\
         z_faces hf zl = lefts h0 fn b (z_faces hs z) /\ z_faces hf zr = rights h0 fn b (z_faces hs z) /\
         z_name hf zl = z_name hs z ++ lit "l" /\ z_name hf zr = z_name hs z ++ lit "r").

    Lemma loose_zone : forall h z f, hst h -> In z (g_zones h) -> ~ In z K ->
      In f (z_faces h z) -> loose f.
    Proof.
      intros h z f Hs Hz Hk Hf. destruct Hs as [Hm Hzo Hkept _].
      apply (zo_faces h Hzo) in Hf as [Hf Hfz]; auto. split.
      - apply mesh_fields in Hm. decompose [and] Hm. congruence.
      - intros k HkK Hc. destruct (Hkept k HkK) as (Hin & Ef & _).
        rewrite <- Ef in Hc. apply (zo_faces h Hzo) in Hc as [_ Hc]; auto.
        assert (k = z) by congruence. subst. contradiction.
    Qed.

    Lemma lefts_mesh : forall h fn b fs, mesh_sign fn -> mesh h = mesh h0 ->
      lefts h fn b fs = lefts h0 fn b fs /\ rights h fn b fs = rights h0 fn b fs.
    Proof.
      intros h fn b fs Hm Em. unfold lefts, rights.
      split; apply filter_ext; intros f; rewrite (Hm h0 h f Em); auto.
    Qed.

    Definition same_zone (h h' : heap) (z : nat) : Prop :=
      z_faces h' z = z_faces h z /\ z_name h' z = z_name h z /\ z_fixed h' z = z_fixed h z.

    (** One call of split_zone. *)
    Lemma step_ok : forall h z rest, hst h -> g_zones h = z :: rest ->
      exists r h', split_zone z fns h = (r, h') /\ (last_differs -> r = Ok tt) /\
        (r = Ok tt -> hst h' /\ g_name h' = g_name h /\ next_z h <= next_z h' /\
           exists out, g_zones h' = rest ++ out /\ out_ok h h' z out /\
             (forall y, y < next_z h -> y <> z -> same_zone h h' y)).
    Proof.
      intros h z rest Hs Egz. pose proof Hs as [Hm Hzo Hkept Hnew].
      assert (Hzin : In z (g_zones h)) by (rewrite Egz; simpl; auto).
      destruct (z_fixed h z) eqn:Efx; [|destruct (Nat.lt_ge_cases (length (z_faces h z)) 2) as [Hlt|Hge]].
      - (* fixed *)
        exists (Ok tt), (set_g_zones h (rest ++ [z])). split.
        { unfold split_zone. rewrite bind_gets, Efx. unfold zones_remove. rewrite bind_assoc, bind_gets, Egz.
          cbn [remove1]. rewrite Nat.eqb_refl. reflexivity. }
        split; [auto|]. intros _. split; [|split; [reflexivity|split; [cbn; lia|]]].
        2:{ exists [z]. split; [reflexivity|]. split; [|intros y _ _; repeat split; reflexivity].
            left. repeat split; auto. }
        assert (Hp : Permutation (rest ++ [z]) (g_zones h)).
        { rewrite Egz. apply Permutation_sym. apply Permutation_cons_append. }
        constructor; auto.
        + destruct Hzo as [Z1 Z2 Z3 Z4 Z5]. constructor; cbn [g_zones set_g_zones].
          * eapply Permutation_NoDup; [apply Permutation_sym; exact Hp|auto].
          * intros y Hy. apply Z2. eapply Permutation_in; eauto.
          * intros y Hy. apply Z3. eapply Permutation_in; eauto.
          * intros y f Hy. apply Z4. eapply Permutation_in; eauto.
          * intros f Hf. destruct (Z5 f Hf) as (y & Hy & Ey). exists y. split; auto.
            eapply Permutation_in; [apply Permutation_sym; exact Hp|auto].
        + intros y Hy. destruct (Hkept y Hy) as (Hi & Hr). split; auto.
          cbn [g_zones set_g_zones]. eapply Permutation_in; [apply Permutation_sym; exact Hp|auto].
        + intros y Hy. cbn [g_zones set_g_zones] in Hy. apply Hnew. eapply Permutation_in; eauto.
      - (* too small *)
        exists (Ok tt), (set_g_zones h (rest ++ [z])). split.
        { unfold split_zone. rewrite bind_gets, Efx, bind_gets.
          destruct (Nat.ltb_spec (length (z_faces h z)) 2) as [_|Hc]; [|lia].
          unfold zones_remove. rewrite bind_assoc, bind_gets, Egz.
          cbn [remove1]. rewrite Nat.eqb_refl. reflexivity. }
        split; [auto|]. intros _. split; [|split; [reflexivity|split; [cbn; lia|]]].
        2:{ exists [z]. split; [reflexivity|]. split; [|intros y _ _; repeat split; reflexivity].
            left. repeat split; auto. }
        assert (Hp : Permutation (rest ++ [z]) (g_zones h)).
        { rewrite Egz. apply Permutation_sym. apply Permutation_cons_append. }
        constructor; auto.
        + destruct Hzo as [Z1 Z2 Z3 Z4 Z5]. constructor; cbn [g_zones set_g_zones].
          * eapply Permutation_NoDup; [apply Permutation_sym; exact Hp|auto].
          * intros y Hy. apply Z2. eapply Permutation_in; eauto.
          * intros y Hy. apply Z3. eapply Permutation_in; eauto.
          * intros y f Hy. apply Z4. eapply Permutation_in; eauto.
          * intros f Hf. destruct (Z5 f Hf) as (y & Hy & Ey). exists y. split; auto.
            eapply Permutation_in; [apply Permutation_sym; exact Hp|auto].
        + intros y Hy. destruct (Hkept y Hy) as (Hi & Hr). split; auto.
          cbn [g_zones set_g_zones]. eapply Permutation_in; [apply Permutation_sym; exact Hp|auto].
        + intros y Hy. cbn [g_zones set_g_zones] in Hy. apply Hnew. eapply Permutation_in; eauto.
      - (* split *)
        assert (Hnk : ~ In z K).
        { intro Hc. destruct (Hkept z Hc) as (_ & _ & _ & Hx). congruence. }
        assert (Hn : NoDup (z_faces h z)) by (apply (zo_faces_nd h Hzo); auto).
        destruct (split_zone_main Ho fns h z [] rest Hms) as [Hok|[Hbad (h' & E)]]; auto.
        { eapply topo_mesh; eauto. }
        + destruct Hok as (f0 & fl & Ef & Hnd & h' & fn & b & E & Hfn & Eb & Hndf & _ & Hm' & Hgn & Hnz &
            Hgz & Zl & Zr & Nl & Nr & Xl & Xr & Hoth & Hzo').
          assert (Hmfn : mesh_sign fn) by (rewrite Forall_forall in Hms; auto).
          exists (Ok tt), h'. split; [auto|]. split; [auto|]. intros _.
          assert (Hrz : forall y, In y rest -> y < next_z h /\ y <> z).
          { intros y Hy. pose proof (zo_nd h Hzo) as Hn'. rewrite Egz in Hn'. inv Hn'.
            split; [|intro; subst; contradiction]. apply (zo_alloc h Hzo). rewrite Egz. simpl; auto. }
          assert (HrK : forall y, In y K -> In y rest).
          { intros y Hy. destruct (Hkept y Hy) as (Hi & _). rewrite Egz in Hi.
            destruct Hi as [<-|]; auto. contradiction. }
          split.
          { constructor; auto.
            - congruence.
            - intros y Hy. destruct (Hkept y Hy) as (Hi & H1 & H2 & H3).
              destruct (Hrz y (HrK y Hy)) as [Hlt Hne]. destruct (Hoth y Hlt Hne) as (O1 & O2 & O3).
              split; [rewrite Hgz; apply in_or_app; left; auto|]. repeat split; congruence.
            - intros y Hy HyK. rewrite Hgz in Hy. apply in_app_or in Hy as [Hy|[<-|[<-|[]]]]; auto.
              destruct (Hrz y Hy) as [Hlt Hne]. destruct (Hoth y Hlt Hne) as (O1 & O2 & O3).
              rewrite O3. apply Hnew; auto. rewrite Egz. simpl; auto. }
          split; [auto|]. split; [lia|].
          exists [next_z h; S (next_z h)]. split; [auto|]. split; [|exact Hoth].
          right. split; [auto|]. split; [auto|].
          destruct (lefts_mesh h fn b (z_faces h z) Hmfn Hm) as [EL ER].
          exists (next_z h), (S (next_z h)), fn, b. split; [auto|]. split; [auto|].
          split; [rewrite <- Eb; symmetry; apply blade_mesh; auto|].
          split; [apply (nondeg_mesh h0 h); auto|].
          rewrite <- EL, <- ER. auto.
        + exists (Raise EValueError), h'. split; [auto|]. split; [|discriminate].
          intros (f0 & fl & Ef & Hd). exfalso. apply (Hbad f0 fl Ef).
          assert (Hmfl : mesh_sign fl).
          { rewrite Forall_forall in Hms. apply Hms. rewrite Ef. apply in_or_app; simpl; auto. }
          apply (nondeg_mesh h0 h); auto. apply signs_differ_nondeg; auto.
          intros f g Hf Hg Hfg. apply Hd; auto; eapply loose_zone; eauto.
    Qed.

    Let body : nat -> M unit := fun _ =>
      zs <- gets g_zones ;; z0 <- lift (py_get zs 0) ;; split_zone z0 fns.

    (** One pass over all zones. *)
    Lemma level_ok : forall pend s done h, hst h -> g_zones h = pend ++ done ->
      exists r h', for_each (seq s (length pend)) body h = (r, h') /\ (last_differs -> r = Ok tt) /\
        (r = Ok tt -> hst h' /\ g_name h' = g_name h /\ next_z h <= next_z h' /\
           exists outs, g_zones h' = done ++ concat outs /\ Forall2 (out_ok h h') pend outs /\
             (forall y, y < next_z h -> ~ In y pend -> same_zone h h' y)).
    Proof.
      intros pend. induction pend as [|z pend IH]; intros s done h Hs Egz.
      - exists (Ok tt), h. split; [reflexivity|]. split; [auto|]. intros _. split; [auto|].
        split; [auto|]. split; [auto|]. exists []. cbn in *. rewrite app_nil_r.
        split; [auto|]. split; [constructor|]. intros y _ _. repeat split.
      - cbn [length seq for_each]. cbn [app] in Egz.
        destruct (step_ok h z (pend ++ done) Hs Egz) as (r1 & h1 & E1 & L1 & G1).
        assert (Eb : body s h = (r1, h1)).
        { unfold body. rewrite bind_gets, Egz. exact E1. }
        destruct r1 as [[]|e].
        2:{ exists (Raise e), h1. rewrite (bind_raise _ _ _ _ _ _ _ Eb). split; [auto|].
            split; [intros Hl; specialize (L1 Hl); discriminate|discriminate]. }
        rewrite (bind_run _ _ _ _ _ _ _ Eb).
        destruct (G1 eq_refl) as (Hs1 & Gn1 & Nz1 & out & Gz1 & Hout & Hsame).
        rewrite <- app_assoc in Gz1.
        destruct (IH (S s) (done ++ out) h1 Hs1 Gz1) as (r2 & h2 & E2 & L2 & G2).
        exists r2, h2. split; [auto|]. split; [auto|]. intros Er2.
        destruct (G2 Er2) as (Hs2 & Gn2 & Nz2 & outs & Gz2 & Houts & Hsame2).
        split; [auto|]. split; [congruence|]. split; [lia|].
        exists (out :: outs). split; [cbn [concat]; rewrite Gz2, app_assoc; auto|].
        pose proof (hs_zones h Hs) as Hzo. pose proof (zo_nd h Hzo) as Hnd. rewrite Egz in Hnd.
        assert (Hpd : NoDup pend) by (inv Hnd; apply NoDup_app_inv in H2; tauto).
        assert (Hzp : ~ In z pend) by (inv Hnd; intro; apply H1; apply in_or_app; auto).
        assert (Hlt : forall y, In y (z :: pend) -> y < next_z h).
        { intros y Hy. apply (zo_alloc h Hzo). rewrite Egz. destruct Hy as [<-|Hy]; [simpl; auto|].
          right. apply in_or_app; auto. }
        assert (Hnd1 : NoDup (pend ++ done ++ out)).
        { rewrite <- Gz1. apply (zo_nd h1). apply (hs_zones h1 Hs1). }
        split.
        + constructor.
          * (* out of z keeps its faces during the rest of the pass *)
            assert (Hkeep : forall y, In y out -> same_zone h1 h2 y).
            { intros y Hy. apply Hsame2.
              - apply (zo_alloc h1); [apply (hs_zones h1 Hs1)|]. rewrite Gz1.
                apply in_or_app; right; apply in_or_app; auto.
              - intro Hc. apply NoDup_app_inv in Hnd1 as (_ & _ & Hdj). apply (Hdj y Hc).
                apply in_or_app; auto. }
            destruct Hout as [(H1 & -> & H2 & H3 & H4)|(H1 & H2 & zl & zr & fn & b & -> & H3 & H4 & H5 & H6 & H7 & H8 & H9)].
            -- left. destruct (Hkeep z) as (K1 & K2 & K3); [simpl; auto|].
               split; [auto|]. split; [auto|]. split; [congruence|]. split; congruence.
            -- right. split; [auto|]. split; [auto|]. exists zl, zr, fn, b.
               destruct (Hkeep zl) as (K1 & K2 & K3); [simpl; auto|].
               destruct (Hkeep zr) as (K4 & K5 & K6); [simpl; auto|].
               split; [auto|]. split; [auto|]. split; [auto|]. split; [auto|].
               split; [congruence|]. split; [congruence|]. split; congruence.
          * (* the pending zones were not touched by the split of z *)
            assert (G : forall l outs, Forall2 (out_ok h1 h2) l outs -> incl l pend ->
              Forall2 (out_ok h h2) l outs).
            { intros l os Hf. induction Hf as [|y o l os Hyo Hf IHf]; intros Hi; constructor.
              - assert (Hyp : In y pend) by (apply Hi; simpl; auto).
                destruct (Hsame y) as (K1 & K2 & K3).
                { apply Hlt. simpl; auto. }
                { intro; subst; contradiction. }
                unfold out_ok in *. rewrite K1, K2, K3 in Hyo. auto.
              - apply IHf. intros x Hx. apply Hi. simpl; auto. }
            apply G; auto. intros x Hx; auto.
        + intros y Hy Hny. destruct (Hsame y Hy) as (K1 & K2 & K3).
          { intro; subst. apply Hny; simpl; auto. }
          destruct (Hsame2 y) as (J1 & J2 & J3).
          { lia. }
          { intro. apply Hny; simpl; auto. }
          repeat split; congruence.
    Qed.

    Definition lr (c : ascii) : Prop := c = "l"%char \/ c = "r"%char.

    Definition U : nat := length (g_faces h0) - list_sum (map (fun z => length (z_faces h0 z)) K).

    (** The state between passes. *)
    Definition passed (L : nat) (h : heap) : Prop :=
      hst h /\ exists N, g_zones h = K ++ N /\ length N <= 2 ^ L /\
        (forall z, In z N -> exists w, z_name h z = lit "h" ++ w /\ Forall lr w) /\
        (1 <= U -> forall z, In z N -> z_faces h z <> []) /\
        (all_differ -> 2 ^ L <= U -> length N = 2 ^ L /\
           forall z, In z N -> length (z_faces h z) = U / 2 ^ L \/ length (z_faces h z) = S (U / 2 ^ L)).

    Lemma out_fixed : forall h h' zs outs, Forall2 (out_ok h h') zs outs ->
      (forall z, In z zs -> z_fixed h z = true) -> concat outs = zs.
    Proof.
      intros h h' zs outs H. induction H as [|z out zs outs Hz H IH]; intros Hf; auto.
      cbn [concat]. rewrite IH by (intros; apply Hf; simpl; auto).
      destruct Hz as [(_ & -> & _)|(Hc & _)]; auto.
      rewrite Hf in Hc by (simpl; auto). discriminate.
    Qed.

    Lemma Forall2_concat_In : forall (R : nat -> list nat -> Prop) zs outs y,
      Forall2 R zs outs -> In y (concat outs) -> exists z out, In z zs /\ R z out /\ In y out.
    Proof.
      intros R zs outs y H. induction H as [|z out zs outs Hz H IH]; cbn; [intros []|].
      intros Hy. apply in_app_or in Hy as [Hy|Hy]; [eauto 6|].
      destruct (IH Hy) as (z' & o & H1 & H2 & H3). eauto 8.
    Qed.

    Lemma Forall2_concat_length : forall (R : nat -> list nat -> Prop) zs outs n,
      Forall2 R zs outs -> (forall z out, In z zs -> R z out -> length out <= n) ->
      length (concat outs) <= n * length zs.
    Proof.
      intros R zs outs n H. induction H as [|z out zs outs Hz H IH]; cbn; intros Hn; [lia|].
      rewrite app_length.
      assert (length out <= n) by (eapply Hn; eauto).
      assert (length (concat outs) <= n * length zs) by (apply IH; intros; eapply Hn; eauto). nia.
    Qed.

    Lemma Forall2_concat_length_eq : forall (R : nat -> list nat -> Prop) zs outs n,
      Forall2 R zs outs -> (forall z out, In z zs -> R z out -> length out = n) ->
      length (concat outs) = n * length zs.
    Proof.
      intros R zs outs n H. induction H as [|z out zs outs Hz H IH]; cbn; intros Hn; [lia|].
      rewrite app_length.
      assert (length out = n) by (eapply Hn; eauto).
      assert (length (concat outs) = n * length zs) by (apply IH; intros; eapply Hn; eauto). nia.
    Qed.

    Lemma half_bounds : forall q s, s = q \/ s = S q ->
      (s / 2 = q / 2 \/ s / 2 = S (q / 2)) /\ (s - s / 2 = q / 2 \/ s - s / 2 = S (q / 2)).
    Proof.
      intros q s H.
      pose proof (Nat.div_mod q 2 ltac:(lia)). pose proof (Nat.mod_upper_bound q 2 ltac:(lia)).
      pose proof (Nat.div_mod s 2 ltac:(lia)). pose proof (Nat.mod_upper_bound s 2 ltac:(lia)). lia.
    Qed.

    Lemma pass_ok : forall L h, passed L h ->
      exists r h', (c <- gets (fun h => length (g_zones h)) ;; for_each (seq 0 c) body) h = (r, h') /\
        (last_differs -> r = Ok tt) /\
        (r = Ok tt -> passed (S L) h' /\ g_name h' = g_name h).
    Proof.
      intros L h (Hs & N & Egz & HN & Hnm & Hne & Hex). rewrite bind_gets.
      destruct (level_ok (g_zones h) 0 [] h Hs) as (r & h' & E & HL & HG); [rewrite app_nil_r; auto|].
      exists r, h'. split; [auto|]. split; [auto|]. intros Er.
      destruct (HG Er) as (Hs' & Gn & Nz & outs & Gz & Houts & Hsame). split; [|auto].
      cbn [app] in Gz. rewrite Egz in Houts.
      apply Forall2_app_inv_l in Houts as (outsK & outsN & HK & HNo & ->).
      rewrite concat_app in Gz.
      rewrite (out_fixed _ _ _ _ HK) in Gz by (intros z Hz; apply (hs_kept h Hs); auto).
      assert (HnK : forall z, In z N -> ~ In z K).
      { pose proof (zo_nd h (hs_zones h Hs)) as Hnd. rewrite Egz in Hnd.
        apply NoDup_app_inv in Hnd as (_ & _ & Hdj). intros z Hz Hc. eapply Hdj; eauto. }
      assert (Hgz : forall z, In z N -> In z (g_zones h)) by (intros; rewrite Egz; apply in_or_app; auto).
      assert (Hfx : forall z, In z N -> z_fixed h z = false).
      { intros z Hz. apply (hs_new h Hs); auto. }
      split; [auto|]. exists (concat outsN). split; [auto|]. split; [|split; [|split]].
      - rewrite Nat.pow_succ_r'. eapply Nat.le_trans; [apply (Forall2_concat_length _ _ _ 2 HNo)|nia].
        intros z out _ [(_ & -> & _)|(_ & _ & zl & zr & fn & b & -> & _)]; cbn; lia.
      - intros y Hy. destruct (Forall2_concat_In _ _ _ _ HNo Hy) as (z & out & Hz & Ho' & Hyo).
        destruct (Hnm z Hz) as (w & Ew & Hw).
        destruct Ho' as [(_ & -> & _ & Hn & _)|(_ & _ & zl & zr & fn & b & -> & _ & _ & _ & _ & _ & Nl & Nr)].
        + destruct Hyo as [<-|[]]. exists w. split; [congruence|auto].
        + destruct Hyo as [<-|[<-|[]]].
          * exists (w ++ lit "l"). rewrite Nl, Ew, app_assoc. split; auto.
            apply Forall_app. split; auto. constructor; [left; auto|constructor].
          * exists (w ++ lit "r"). rewrite Nr, Ew, app_assoc. split; auto.
            apply Forall_app. split; auto. constructor; [right; auto|constructor].
      - intros HU y Hy. destruct (Forall2_concat_In _ _ _ _ HNo Hy) as (z & out & Hz & Ho' & Hyo).
        specialize (Hne HU z Hz).
        destruct Ho' as [(_ & -> & Hf & _)|(_ & Hlen & zl & zr & fn & b & -> & Hfn & Eb & Hnd & Fl & Fr & _)].
        + destruct Hyo as [<-|[]]. congruence.
        + destruct Hyo as [<-|[<-|[]]].
          * rewrite Fl. destruct Hnd as (b' & f & Eb' & Hf & Hlt). rewrite Eb in Eb'. inv Eb'.
            intro Hc. assert (Hin : In f (lefts h0 fn b' (z_faces h z))) by (apply filter_In; auto).
            rewrite Hc in Hin. destruct Hin.
          * rewrite Fr. destruct (blade_ok Ho h0 fn (z_faces h z) Hne) as (b' & Eb' & _ & g & Hg & Egb).
            rewrite Eb in Eb'. inv Eb'. intro Hc.
            assert (Hin : In g (rights h0 fn (fn h0 g) (z_faces h z))).
            { apply filter_In. split; auto. rewrite (o_irr Ho). auto. }
            rewrite Hc in Hin. destruct Hin.
      - intros Hall HU. rewrite Nat.pow_succ_r' in HU |- *.
        assert (HU' : 2 ^ L <= U) by lia. destruct (Hex Hall HU') as [Hl Hsz].
        assert (Hp : 2 ^ L <> 0) by (apply Nat.pow_nonzero; lia).
        assert (Hq : 2 <= U / 2 ^ L) by (apply Nat.div_le_lower_bound; lia).
        assert (Hspl : forall z out, In z N -> out_ok h h' z out ->
          exists zl zr, out = [zl; zr] /\ length (z_faces h' zl) = length (z_faces h z) / 2 /\
            length (z_faces h' zr) = length (z_faces h z) - length (z_faces h z) / 2).
        { intros z out Hz Ho'. pose proof (Hsz z Hz) as Hs1.
          destruct Ho' as [([Hc|Hc] & _)|(_ & Hlen & zl & zr & fn & b & -> & Hfn & Eb & Hnd & Fl & Fr & _)].
          - rewrite Hfx in Hc by auto. discriminate.
          - lia.
          - exists zl, zr. split; auto.
            assert (Hd : signs_differ (fn h0) (z_faces h z)).
            { intros f g Hf Hg Hfg. unfold all_differ in Hall. rewrite Forall_forall in Hall.
              apply (Hall fn Hfn); auto; apply (loose_zone h z); auto. }
            assert (Hnz : NoDup (z_faces h z)) by (apply (zo_faces_nd h (hs_zones h Hs)); auto).
            pose proof (blade_distinct Ho h0 fn _ b Hnz Hd Eb) as Hb.
            rewrite Fl, Fr. unfold lefts, rights in *. split; [auto|].
            pose proof (filter_partition _ (fun f => vltb (fn h0 f) b) (z_faces h z)). lia. }
        split.
        + rewrite (Forall2_concat_length_eq _ _ _ 2 HNo); [nia|].
          intros z out Hz Ho'. destruct (Hspl z out Hz Ho') as (zl & zr & -> & _). auto.
        + intros y Hy. destruct (Forall2_concat_In _ _ _ _ HNo Hy) as (z & out & Hz & Ho' & Hyo).
          destruct (Hspl z out Hz Ho') as (zl & zr & -> & S1 & S2).
          rewrite (Nat.mul_comm 2), <- Nat.div_div by lia.
          destruct (half_bounds (U / 2 ^ L) (length (z_faces h z)) (Hsz z Hz)) as [B1 B2].
          destruct Hyo as [<-|[<-|[]]]; lia.
    Qed.

    Lemma passes_ok : forall n s L h, passed L h ->
      exists r h', for_each (seq s n) (fun _ =>
          c <- gets (fun h => length (g_zones h)) ;; for_each (seq 0 c) body) h = (r, h') /\
        (last_differs -> r = Ok tt) /\
        (r = Ok tt -> passed (n + L) h' /\ g_name h' = g_name h).
    Proof.
      intros n. induction n as [|n IH]; intros s L h Hp.
      - exists (Ok tt), h. split; [reflexivity|]. auto.
      - cbn [seq for_each]. destruct (pass_ok L h Hp) as (r1 & h1 & E1 & L1 & G1).
        destruct r1 as [[]|e].
        2:{ exists (Raise e), h1. rewrite (bind_raise _ _ _ _ _ _ _ E1). split; [auto|].
            split; [intros Hl; specialize (L1 Hl); discriminate|discriminate]. }
        rewrite (bind_run _ _ _ _ _ _ _ E1). destruct (G1 eq_refl) as [P1 Gn1].
        destruct (IH (S s) (S L) h1 P1) as (r2 & h2 & E2 & L2 & G2).
        exists r2, h2. split; [auto|]. split; [auto|]. intros Er. destruct (G2 Er) as [P2 Gn2].
        split; [|congruence]. replace (S n + L) with (n + S L) by lia. auto.
    Qed.
  End Run.

  (** Filling the zone 'h' with the faces that have no zone. *)
  Lemma fill_free : forall z fs h, NoDup fs ->
    for_each fs (fun f =>
      zo <- gets (fun h => f_zone h f) ;;
      match zo with None => zone_add_face z f | Some _ => ret tt end) h
    = assign (map (fun f => (z, f)) (filter (zone_is_none h) fs)) h.
  Proof.
    intros z fs. induction fs as [|f fs IH]; intros h Hn; [reflexivity|]. inv Hn.
    cbn [for_each filter]. rewrite bind_assoc, bind_gets. unfold zone_is_none at 1.
    destruct (f_zone h f) as [z'|] eqn:Ef.
    - rewrite bind_ret. apply IH. auto.
    - unfold assign. cbn [map for_each fst snd].
      destruct (zone_add_face_ok z f h) as (h1 & E1 & _ & _ & Ho1 & _); [congruence|congruence|].
      rewrite !(bind_run _ _ _ _ _ _ _ E1). rewrite IH by auto.
      rewrite (filter_ext_in' _ (zone_is_none h1) (zone_is_none h)).
      + reflexivity.
      + intros g Hg. unfold zone_is_none. rewrite Ho1; auto. intro; subst; contradiction.
  Qed.

  Lemma hierarchical_ok : forall fns levels nm names h, Forall mesh_sign fns -> grid_ok h -> 1 <= levels ->
    exists r h', decompose_hierarchical fns levels nm names h = (r, h') /\
      (last_differs h (kept h names) fns -> r = Ok tt) /\
      (r = Ok tt -> decomposed h h' nm /\
         exists N, g_zones h' = kept h names ++ N /\ length N <= 2 ^ (levels - 1) /\
           (forall z, In z (kept h names) -> z_faces h' z = z_faces h z /\ z_name h' z = z_name h z) /\
           (forall z, In z N -> exists w, z_name h' z = lit "h" ++ w /\ Forall lr w) /\
           (1 <= U h (kept h names) -> forall z, In z N -> z_faces h' z <> []) /\
           (all_differ h (kept h names) fns -> 2 ^ (levels - 1) <= U h (kept h names) ->
              length N = 2 ^ (levels - 1) /\
              forall z, In z N ->
                length (z_faces h' z) = U h (kept h names) / 2 ^ (levels - 1) \/
                length (z_faces h' z) = S (U h (kept h names) / 2 ^ (levels - 1)))).
  Proof.
    intros fns levels nm names h Hms Hg Hlv.
    destruct (fixed_prologue names nm h Hg)
      as (h1 & h2 & h4 & E1 & E2 & E4 & M4 & Nm4 & Gz4 & Zf4 & Zn4 & Nz4 & P4 & Gz3 & Fx4).
    unfold decompose_hierarchical. rewrite (bind_run _ _ _ _ _ _ _ E1), (bind_run _ _ _ _ _ _ _ E2).
    unfold keep_fixed. rewrite bind_modify. rewrite (bind_run _ _ _ _ _ _ _ E4).
    destruct (Nat.ltb_spec levels 1) as [Hc|_]; [lia|].
    rewrite bind_new_zone. unfold append_zone at 1. rewrite bind_modify, bind_gets.
    destruct (new_zone_facts (lit "h") h4) as (A1 & A2 & A3 & A4 & A5 & A6 & A7 & A8 & A9).
    set (ha := snd (new_zone (lit "h") h4)) in *. clearbody ha.
    set (z := next_z h4) in *.
    destruct (set_g_zones_facts ha (g_zones ha ++ [z])) as (B1 & B2 & B3 & B4 & B5 & B6 & B7 & B8).
    set (h5 := set_g_zones ha (g_zones ha ++ [z])) in *. clearbody h5.
    assert (M5 : mesh h5 = mesh h) by congruence.
    assert (Ht5 : topo_ok h5) by (eapply topo_mesh; [eauto|]; apply Hg).
    assert (Gz5 : g_zones h5 = kept h names ++ [z]) by (rewrite B8, A3, Gz4; auto).
    assert (Zo5 : forall y, y < z -> z_faces h5 y = z_faces h y /\ z_name h5 y = z_name h y /\
                    z_fixed h5 y = z_fixed h4 y).
    { intros y Hy. destruct (A9 y) as (E1' & E2' & E3'); [lia|].
      rewrite B3, B4, B5, E1', E2', E3', Zf4, Zn4. auto. }
    assert (Zn5 : z_faces h5 z = [] /\ z_name h5 z = lit "h" /\ z_fixed h5 z = false /\ next_z h5 = S z /\
                  f_zone h5 = f_zone h4 /\ g_name h5 = g_name h4).
    { rewrite B2, B3, B4, B5, B6, B7. auto 8. }
    clear A1 A2 A3 A4 A5 A6 A7 A8 A9 B1 B2 B3 B4 B5 B6 B7 B8.
    destruct Zn5 as (Ze5 & Zm5 & Zx5 & Nz5 & Fz5 & Gn5).
    assert (P5 : pzones h5).
    { apply (pzones_extend h4 h5 [z]); auto.
      - congruence.
      - congruence.
      - constructor; [intros []|constructor].
      - intros y [<-|[]]. fold z. lia.
      - fold z. lia.
      - intros y [<-|[]]. auto.
      - intros y Hy. rewrite Zf4. apply Zo5. auto. }
    destruct (fill_ok h5 z (free h5)) as (h6 & E6 & F6 & P6 & Zf6 & Zo6 & Fr6 & Fz6 & Fo6); auto.
    { rewrite Gz5. apply in_or_app; simpl; auto. }
    { apply NoDup_filter. apply t_faces_nd. auto. }
    { intros x Hx; auto. }
    unfold free in E6. rewrite <- fill_free in E6 by (apply t_faces_nd; auto).
    rewrite (bind_run _ _ _ _ _ _ _ E6).
    rewrite Ze5 in Zf6. cbn [app] in Zf6.
    pose proof (frameZ_fields _ _ F6) as (M6 & Gz6 & Gf6 & Nz6 & Fx6 & Zn6 & Gn6 & _).
    assert (Hk : forall y, In y (kept h names) -> y < z).
    { intros y Hy. rewrite <- Gz4 in Hy. apply (pz_alloc h4 P4). auto. }
    assert (Hfree6 : free h6 = []).
    { destruct (free h6) as [|f l]; auto. exfalso.
      destruct (proj1 (Fr6 f)) as [? Hc]; [simpl; auto|]. auto. }
    assert (HU : length (free h5) = U h (kept h names)).
    { unfold U. pose proof (Permutation_length (pzones_perm h5 (t_faces_nd h5 Ht5) P5)) as Hl.
      assert (Gf5 : g_faces h5 = g_faces h) by (apply mesh_fields in M5; decompose [and] M5; auto).
      rewrite Gf5, app_length, concat_length, Gz5, map_app, list_sum_app in Hl. cbn [map] in Hl.
      rewrite Ze5 in Hl. cbn [length list_sum fold_right] in Hl.
      rewrite (map_ext_in (fun z => length (z_faces h5 z)) (fun z => length (z_faces h z))
               (kept h names)) in Hl.
      2:{ intros y Hy. destruct (Zo5 y (Hk y Hy)) as (-> & _). auto. }
      unfold list_sum in *. cbn [fold_right] in Hl. lia. }
    assert (H6 : passed h (kept h names) fns 0 h6).
    { split.
      - constructor.
        + congruence.
        + apply pzones_total; auto.
        + intros y Hy. pose proof (Hk y Hy) as Hlt. destruct (Zo5 y Hlt) as (O1 & O2 & O3).
          split; [rewrite Gz6, Gz5; apply in_or_app; auto|].
          rewrite Zo6 by lia. rewrite Zn6, Fx6. split; [congruence|]. split; [congruence|].
          rewrite O3. auto.
        + intros y Hy Hn. rewrite Gz6, Gz5 in Hy. apply in_app_or in Hy as [Hy|[<-|[]]]; [contradiction|].
          congruence.
      - exists [z]. split; [congruence|]. split; [cbn; lia|]. split.
        { intros y [<-|[]]. exists []. split; [rewrite Zn6, Zm5; reflexivity|constructor]. }
        split.
        { intros Hu y [<-|[]]. rewrite Zf6. intro Hc. rewrite Hc in HU. cbn in HU. lia. }
        intros _ _. cbn [Nat.pow length]. split; [auto|].
        intros y [<-|[]]. left. rewrite Zf6, HU, Nat.div_1_r. auto. }
    destruct (passes_ok h (kept h names) fns Hms (proj1 Hg) (levels - 1) 0 0 h6 H6)
      as (r & h7 & E7 & L7 & G7).
    destruct r as [[]|e].
    2:{ exists (Raise e), h7. rewrite (bind_raise _ _ _ _ _ _ _ E7). split; [auto|].
        split; [intros Hl; specialize (L7 Hl); discriminate|discriminate]. }
    rewrite (bind_run _ _ _ _ _ _ _ E7).
    destruct (G7 eq_refl) as ((Hs7 & N & Gz7 & HN & Hnm & Hne & Hex) & Gn7).
    rewrite Nat.add_0_r in *.
    destruct (finish' h h7 nm) as (h8 & E8 & D8 & Gz8 & Zf8 & Zn8 & _ & _).
    { apply Hg. }
    { apply Hs7. }
    { congruence. }
    { apply Hs7. }
    exists (Ok tt), h8. split; [auto|]. split; [auto|]. intros _. split; [auto|].
    exists N. rewrite Zf8, Zn8, Gz8. split; [auto|]. split; [auto|]. split.
    { intros y Hy. destruct (hs_kept _ _ _ Hs7 y Hy) as (_ & ? & ? & _). auto. }
    auto.
  Qed.
End Hier.
