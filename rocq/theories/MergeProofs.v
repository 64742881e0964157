(** Proofs about merge. *)

From Coq Require Import ZArith NArith Ascii String Bool Lia List Permutation.
From Verif Require Import Py PyLemmas Heap HeapLemmas GridModel GridSpec DecompProofs Mpi GridIO FileSpec MpiSpec StoreSpec Utils
  LoadParse LoadPlace LoadMain LoadFresh LoadProps StoreProofs RoundTrip SamplesStore PlainProofs Driver DriverSpec
  DriverProofs.
Import ListNotations.
Open Scope list_scope.
Open Scope nat_scope.

Section Merge.
  Context {F : FloatOps}.

  Lemma calc_files_ok : forall vars txts tables h, Forall2 (fun t tab => calc_file t vars tab) txts tables ->
    (forall r, In r (concat tables) -> exists f, py_get (g_faces h) (fst r) = Ok f) ->
    for_each txts load_faces_calc_data h =
      (Ok tt, set_f_data h (fold_left (put (g_faces h) vars) (concat tables) (f_data h))).
  Proof.
    intros vars txts tables h H. revert h. induction H as [|t tab txts tables Ht H IH]; intros h Hf.
    - destruct h; reflexivity.
    - cbn [for_each concat] in *. rewrite (bind_run _ _ _ _ _ _ _ (calc_ok t vars tab h Ht
        (fun r K => Hf r (in_or_app _ _ _ (or_introl K))))).
      rewrite IH by (intros r K; apply Hf, in_or_app; right; exact K).
      rewrite fold_left_app. reflexivity.
  Qed.

  (** [grid_ok] and the other conditions do not depend on the data. *)
  Lemma grid_ok_data : forall h d, grid_ok h -> grid_ok (set_f_data h d).
  Proof. intros h d [[] []]. split; constructor; assumption. Qed.

  Lemma nth_combine_seq : forall A (rows : list A) (x : Z * A),
    In x (combine (map Z.of_nat (seq 0 (length rows))) rows) <->
    exists i, nth_error rows i = Some (snd x) /\ fst x = Z.of_nat i.
  Proof.
    intros A rows x.
    assert (G : forall k, In x (combine (map Z.of_nat (seq k (length rows))) rows) <->
      exists i, nth_error rows i = Some (snd x) /\ fst x = Z.of_nat (k + i)).
    { induction rows as [|r rows IH]; intros k; cbn.
      - split; [intros []|]. intros ([|i] & E & _); discriminate.
      - rewrite IH. split.
        + intros [<-|(i & E & E')].
          * exists 0. cbn. rewrite Nat.add_0_r. auto.
          * exists (S i). cbn. split; auto. rewrite E'. f_equal. lia.
        + intros ([|i] & E & E').
          * left. cbn in E. injection E as ->. rewrite Nat.add_0_r in E'. destruct x; cbn in *; congruence.
          * right. exists i. split; auto. rewrite E'. f_equal. lia. }
    exact (G 0).
  Qed.

  Lemma fst_combine_seq : forall A (rows : list A),
    map fst (combine (map Z.of_nat (seq 0 (length rows))) rows) = map Z.of_nat (seq 0 (length rows)).
  Proof.
    intros A rows. generalize 0. induction rows as [|r rows IH]; intros k; cbn; [auto|]. f_equal. apply IH.
  Qed.

  (** After reading the calc files of a covering family. *)
  Lemma put_covering : forall fs vars tables rows d0 i f row, NoDup fs -> length rows = length fs ->
    NoDup vars -> (forall r, In r rows -> length r = length vars) ->
    Permutation (concat tables) (combine (map Z.of_nat (seq 0 (length rows))) rows) ->
    nth_error fs i = Some f -> nth_error rows i = Some row ->
    fold_left (put fs vars) (concat tables) d0 f = combine vars row.
  Proof.
    intros fs vars tables rows d0 i f row N L Nv Hl P Hf Hr.
    rewrite <- (dict_of_nodup _ vars row) by (auto; apply Hl; eapply nth_error_In; eauto).
    assert (Hin : In (Z.of_nat i, row) (concat tables)).
    { apply Permutation_sym in P. apply (Permutation_in _ P). apply nth_combine_seq. exists i. auto. }
    assert (Hrng : forall r, In r (concat tables) -> (0 <= fst r < Z.of_nat (length fs))%Z).
    { intros r K. apply (Permutation_in _ P) in K. apply nth_combine_seq in K as (j & E & ->).
      assert (j < length rows) by (apply nth_error_Some; congruence). lia. }
    apply (fold_put_last fs vars _ d0 i f row N Hrng Hf).
    apply in_split in Hin as (pre & post & E). exists pre, post. split; auto.
    assert (ND : NoDup (map fst (concat tables))).
    { apply (Permutation_NoDup (l := map Z.of_nat (seq 0 (length rows)))).
      - rewrite <- fst_combine_seq. apply Permutation_map, Permutation_sym. exact P.
      - apply FinFun.Injective_map_NoDup; [intros a b; apply Nat2Z.inj|apply seq_NoDup]. }
    rewrite E, map_app in ND. cbn in ND. apply NoDup_remove_2 in ND. intros K. apply ND, in_or_app. auto.
  Qed.

  Lemma with_rows_length : forall vars zs rows, length (with_rows vars rows zs) = length zs.
  Proof. intros vars. induction zs as [|z zs IH]; intros rows; cbn; auto. Qed.

  Lemma with_rows_nth : forall vars (D : nat -> list val) (zf : nat -> list nat) zs ids,
    Forall2 (fun z zr => length (zf z) = length (zr_conn zr)) ids zs ->
    forall i z zr, nth_error ids i = Some z -> nth_error zs i = Some zr ->
    nth_error (with_rows vars (map D (flat_map zf ids)) zs) i =
      Some (mkZone (zr_name zr) vars (zr_pts zr) (map D (zf z)) (zr_conn zr)).
  Proof.
    intros vars D zf zs ids H. induction H as [|z0 zr0 ids zs L H IH]; intros i z zr Hz Hzr.
    - destruct i; discriminate.
    - cbn [flat_map with_rows]. rewrite map_app. destruct i as [|i]; cbn [nth_error] in *.
      + injection Hz as <-. injection Hzr as <-. f_equal. f_equal.
        rewrite firstn_app, <- L, <- (map_length D), firstn_all, Nat.sub_diag. cbn. apply app_nil_r.
      + rewrite skipn_app, <- L, <- (map_length D), skipn_all, Nat.sub_diag. cbn [skipn app]. eauto.
  Qed.

  Lemma Forall2_by_nth : forall A B (R : A -> B -> Prop) l l', length l = length l' ->
    (forall i a b, nth_error l i = Some a -> nth_error l' i = Some b -> R a b) -> Forall2 R l l'.
  Proof.
    intros A B R l. induction l as [|a l IH]; intros [|b l'] L H; cbn in L; try discriminate; constructor.
    - apply (H 0); reflexivity.
    - apply IH; [lia|]. intros i. apply (H (S i)).
  Qed.

  Lemma dict_ext : forall V ks (d : dict str V) (g : list V), NoDup ks -> keys d = ks -> length g = length ks ->
    (forall k, In k ks -> dget str_dec d k = dget str_dec (combine ks g) k) -> d = combine ks g.
  Proof.
    intros V ks. induction ks as [|k ks IH]; intros [|[a b] d] g N E L H; try discriminate; [reflexivity|].
    cbn in E. injection E as -> E. destruct g as [|x g]; [discriminate|]. inversion N as [|? ? Hk N']; subst.
    cbn [combine]. pose proof (H k (or_introl eq_refl)) as H0. cbn in H0.
    destruct (str_dec k k); [|congruence]. injection H0 as ->. f_equal. apply IH; auto.
    intros k' Hk'. specialize (H k' (or_intror Hk')). cbn in H.
    destruct (str_dec k' k); [subst; contradiction|auto].
  Qed.

  Lemma dget_some_combine : forall V ks (vs : list V) k, In k ks -> length vs = length ks ->
    exists v, dget str_dec (combine ks vs) k = Some v.
  Proof.
    intros V ks. induction ks as [|k0 ks IH]; intros [|v vs] k H L; try discriminate; [destruct H|].
    cbn. destruct (str_dec k k0); eauto. apply IH; [|cbn in L; lia]. destruct H; congruence.
  Qed.

  (** From the original file to the grid read back. *)
  Lemma same_holds : forall zs vars rows hl d h2,
    holds_zones zs hl -> grid_ok hl -> nodes_merged hl -> NoDup vars ->
    rows = map (fun f => map snd (d f)) (g_faces hl) ->
    (forall f, In f (g_faces hl) -> exists row, length row = length vars /\ d f = combine vars row) ->
    same_contents vars (set_f_data hl d) h2 ->
    g_faces h2 = flat_map (z_faces h2) (g_zones h2) -> grid_ok h2 -> nodes_merged h2 ->
    holds_zones (with_rows vars rows zs) h2.
  Proof.
    intros zs vars rows hl d h2 (L & Eg & H) [Ht Hz] Hm Nv -> Hd (_ & L2 & L3 & _ & S) Eg2 [Ht2 Hz2] Hm2.
    change (g_zones (set_f_data hl d)) with (g_zones hl) in *.
    change (g_faces (set_f_data hl d)) with (g_faces hl) in *.
    change (z_faces (set_f_data hl d)) with (z_faces hl) in *.
    change (z_name (set_f_data hl d)) with (z_name hl) in *.
    change (f_nodes (set_f_data hl d)) with (f_nodes hl) in *.
    change (n_p (set_f_data hl d)) with (n_p hl) in *.
    split; [rewrite with_rows_length; congruence|]. split; [auto|].
    intros i z2 zr2 Ez2 Ezr2.
    assert (Li : i < length (g_zones hl)).
    { rewrite <- L2. apply nth_error_Some. congruence. }
    destruct (nth_error (g_zones hl) i) as [z|] eqn:Ez; [|apply nth_error_None in Ez; lia].
    destruct (nth_error zs i) as [zr|] eqn:Ezr; [|apply nth_error_None in Ezr; lia].
    rewrite Eg in Ezr2. rewrite (with_rows_nth vars (fun f => map snd (d f)) (z_faces hl) zs (g_zones hl)) with (z := z) (zr := zr) in Ezr2; auto.
    2:{ apply Forall2_by_nth; [auto|]. intros j a b Ea Eb. apply (H j a b Ea Eb). }
    injection Ezr2 as <-. cbn [zr_name zr_conn zr_data zr_vars].
    destruct (S i z z2 Ez Ez2) as (S1 & _ & S2 & S3). destruct (H i z zr Ez Ezr) as (H1 & H2 & H3).
    split; [congruence|]. split; [congruence|]. intros k f2 Ef2.
    assert (Lk : k < length (z_faces hl z)). { rewrite <- S2. apply nth_error_Some. congruence. }
    destruct (nth_error (z_faces hl z) k) as [f|] eqn:Ef; [|apply nth_error_None in Ef; lia].
    destruct (S3 k f f2 Ef Ef2) as (S4 & S5 & S6). destruct (H3 k f Ef) as (_ & row & t & _ & Et & _ & Hc).
    assert (Iz2 : In z2 (g_zones h2)) by (eapply nth_error_In; eauto).
    assert (Iz : In z (g_zones hl)) by (eapply nth_error_In; eauto).
    assert (If : In f (g_faces hl)). { apply (zo_faces hl Hz z f Iz). eapply nth_error_In; eauto. }
    assert (If2 : In f2 (g_faces h2)). { apply (zo_faces h2 Hz2 z2 f2 Iz2). eapply nth_error_In; eauto. }
    split. { apply (zo_faces h2 Hz2 z2 f2 Iz2). eapply nth_error_In; eauto. }
    destruct (Hd f If) as (vs & Lvs & Ed).
    assert (Es : map snd (d f) = vs).
    { rewrite Ed. clear - Lvs. revert vs Lvs. induction vars as [|v vars IH]; intros [|x vs] L; try discriminate; cbn; auto.
      f_equal. apply IH. cbn in L. lia. }
    exists vs, t. split. { rewrite nth_error_map, Ef. cbn. f_equal. auto. }
    split; [auto|]. split.
    - rewrite (dict_of_nodup _ vars vs) by auto. apply dict_ext; auto. intros v Hv. rewrite (S6 v Hv).
      unfold var_value. change (f_data (set_f_data hl d)) with d. rewrite Ed.
      destruct (dget_some_combine _ vars vs v Hv Lvs) as (x & ->). reflexivity.
    - destruct (t_face_nodes hl Ht f If) as (_ & _ & I1). destruct (t_face_nodes h2 Ht2 f2 If2) as (_ & _ & I2).
      destruct Hm as (_ & _ & R1). destruct Hm2 as (_ & _ & R2).
      match goal with |- Forall2 _ (corners ?zr2 t) _ => assert (Ec : corners zr2 t = corners zr t)
        by (destruct t as [[? ?] ?]; reflexivity); rewrite Ec; clear Ec end.
      clear - Hc S4 I1 I2 R1 R2. revert S4 I1 I2. generalize (f_nodes h2 f2).
      induction Hc as [|o n os ns (p & E1 & E2) Hc IH]; intros l S4 I1 I2; destruct l as [|m l]; try discriminate; constructor.
      + cbn in S4. injection S4 as E3 _. exists p. split; auto. rewrite R2 by (apply I2; simpl; auto). rewrite E3.
        rewrite <- R1 by (apply I1; simpl; auto). auto.
      + apply IH; [cbn in S4; congruence| |]; intros x Hx; [apply I1|apply I2]; simpl; auto.
  Qed.

  Lemma faces_count : forall zs h, holds_zones zs h -> length (g_faces h) = faces_in zs.
  Proof.
    intros zs h (L & Eg & H). rewrite Eg. unfold faces_in.
    assert (H' : forall i z zr, nth_error (g_zones h) i = Some z -> nth_error zs i = Some zr ->
      length (z_faces h z) = length (zr_conn zr)) by (intros; eapply H; eauto).
    clear H Eg. revert zs L H'. induction (g_zones h) as [|z l IH]; intros [|zr zs] L H; try discriminate; [reflexivity|].
    cbn. rewrite app_length, (H 0 z zr eq_refl eq_refl). f_equal. apply IH; [cbn in L; lia|]. intros i. apply (H (S i)).
  Qed.

  Lemma header_plain : forall line vars, calc_header line vars -> forall v, In v vars -> plain_var v.
  Proof.
    intros line vars (s & Hs & ->) v Hv. apply (words_plain s); [exact (last_part_noeq _ _ Hs)|].
    destruct (split_ws _); [destruct Hv|]. right. auto.
  Qed.

  Lemma rows_as_data : forall (d : nat -> dict str val) vars fs rows, length rows = length fs ->
    (forall i f row, nth_error fs i = Some f -> nth_error rows i = Some row ->
       length row = length vars /\ d f = combine vars row) ->
    rows = map (fun f => map snd (d f)) fs.
  Proof.
    intros d vars fs. induction fs as [|f fs IH]; intros [|r rows] L H; try discriminate; [reflexivity|]. cbn. f_equal.
    - destruct (H 0 f r eq_refl eq_refl) as [Lr ->]. clear H L IH. revert r Lr. induction vars as [|v vars IH']; intros r Lr; destruct r; try discriminate; cbn; auto.
      f_equal. apply IH'. cbn in Lr. lia.
    - apply IH; [cbn in L; lia|]. intros i. apply (H (S i)).
  Qed.

  (** C28, one timestamp. *)
  Lemma merge_one_main : forall grid_text txts vars rows h hl evs,
    faithful_numbers -> load true grid_text h = (Ok tt, hl) -> file_form [] (file_lines grid_text) evs ->
    no_degenerate (zones_of evs) -> faces_in (zones_of evs) <> 0 -> plain_name (g_name hl) ->
    covering (zones_of evs) txts vars rows ->
    exists text h', merge_one grid_text txts h = (Ok text, h') /\ h' = set_f_data hl (f_data h') /\
      forall h1, exists h2, load true text h1 = (Ok tt, h2) /\
        merged_grid (g_name hl) (zones_of evs) vars rows h2.
  Proof.
    intros grid_text txts vars rows h hl evs Hn El Hf Nd Nf Hp (Nv & Lr & Hlen & tables & Ht & P).
    destruct (loaded_good _ _ _ _ El Hf Nd) as (Hok & Hl & Hnb & Hm).
    destruct (load_result _ _ _ _ _ El Hf) as [Ld _]. pose proof (ld_zones _ _ _ Ld) as Hz.
    pose proof (faces_count _ _ Hz) as Ec.
    assert (Lf : length rows = length (g_faces hl)) by congruence.
    set (d := fold_left (put (g_faces hl) vars) (concat tables) (f_data hl)).
    assert (Ndf : NoDup (g_faces hl)) by (destruct Hok as [[] _]; auto).
    assert (Hd : forall i f row, nth_error (g_faces hl) i = Some f -> nth_error rows i = Some row -> d f = combine vars row).
    { intros i f row E1 E2. apply (put_covering (g_faces hl) vars tables rows _ i f row); auto. }
    assert (Hd' : forall f, In f (g_faces hl) -> exists row, length row = length vars /\ d f = combine vars row).
    { intros f Hi. apply In_nth_error in Hi as (i & Hi). destruct (nth_error rows i) as [row|] eqn:Er.
      - exists row. split; [apply Hlen; eapply nth_error_In; eauto|eauto].
      - apply nth_error_None in Er. assert (i < length (g_faces hl)) by (apply nth_error_Some; congruence). lia. }
    assert (Er : rows = map (fun f => map snd (d f)) (g_faces hl)).
    { apply (rows_as_data d vars); auto. intros i f row E1 E2. split; [apply Hlen; eapply nth_error_In; eauto|eauto]. }
    assert (Hg : forall r, In r (concat tables) -> exists f, py_get (g_faces hl) (fst r) = Ok f).
    { intros r K. apply (Permutation_in _ P) in K. apply nth_combine_seq in K as (j & E & E').
      assert (j < length (g_faces hl)) by (rewrite <- Lf; apply nth_error_Some; congruence).
      destruct (nth_error (g_faces hl) j) as [f|] eqn:Ej; [|apply nth_error_None in Ej; lia].
      exists f. rewrite E'. apply py_get_nat. auto. }
    pose proof (calc_files_ok vars txts tables hl Ht Hg) as Ecalc. fold d in Ecalc.
    set (hm := set_f_data hl d) in *.
    assert (Evars : grid_vars hm = vars).
    { unfold grid_vars, hm. change (g_faces (set_f_data hl d)) with (g_faces hl).
      change (f_data (set_f_data hl d)) with d.
      destruct (g_faces hl) as [|f fs] eqn:Eg; [cbn in *; congruence|].
      destruct (Hd' f (or_introl eq_refl)) as (row & L1 & ->). apply keys_combine. auto. }
    assert (Okm : grid_ok hm) by (apply grid_ok_data; auto).
    assert (Wm : writable hm).
    { destruct (loaded_names _ _ _ _ _ El Hf) as (A & _).
      split. { change (g_faces hm) with (g_faces hl). intros K. rewrite K in Ec. cbn in Ec. congruence. }
      split; [exact Hp|]. split; [exact A|]. rewrite Evars. split; [|auto].
      destruct txts as [|t txts].
      - assert (tables = []) as -> by (inversion Ht; auto). cbn in P. apply Permutation_nil in P.
        assert (rows = []) as ->. { destruct rows; [auto|discriminate]. }
        cbn in Lr. congruence.
      - inversion Ht as [|? tab ? ? Hh0 _]. destruct Hh0 as (line & ls & _ & Hh & _). exact (header_plain _ _ Hh). }
    destruct (round_trip hm h Hn Okm Hl Hnb Hm Wm) as (text & h0 & Es & _).
    exists text, hm. split; [|split].
    - unfold merge_one. rewrite (bind_run _ _ _ _ _ _ _ El), (bind_run _ _ _ _ _ _ _ Ecalc), bind_gets, Es. reflexivity.
    - reflexivity.
    - intros h1. destruct (round_trip hm h1 Hn Okm Hl Hnb Hm Wm) as (text' & h2 & Es' & E2 & Sc & Ok2 & _ & Hm2 & _).
      rewrite Es in Es'. injection Es' as <-. exists h2. split; [auto|]. rewrite Evars in Sc.
      destruct (load_form _ _ _ _ E2) as (evs2 & Hf2). destruct (load_result _ _ _ _ _ E2 Hf2) as [Ld2 _].
      destruct (ld_zones _ _ _ Ld2) as (_ & Eg2 & _).
      split; [destruct Sc as (-> & _); reflexivity|]. split; [|split; [auto|]].
      + apply (same_holds (zones_of evs) vars rows hl d h2); auto.
      + intros n Hin. rewrite <- (ld_pts _ _ _ Ld). destruct Sc as (_ & _ & _ & K & _).
        assert (Hq : In (n_p h2 n) (map (n_p h2) (g_nodes h2))) by (apply in_map; auto).
        apply K in Hq as (z & Hz' & Hq). change (n_p hm) with (n_p hl) in Hq. change (z_nodes hm) with (z_nodes hl) in Hq.
        apply in_map_iff in Hq as (m & Em & Hq). rewrite <- Em. apply in_map.
        destruct (Hl z Hz') as [Hs _]. apply (sublist_In _ _ _ _ m Hs). auto.
  Qed.

  (** Store reads the data of the faces of the grid only. *)
  Lemma store_zones_data : forall h d d' vars nv zs tbl,
    (forall z f, In z zs -> In f (z_faces h z) -> d f = d' f) ->
    store_zones (set_f_data h d) vars nv tbl zs = store_zones (set_f_data h d') vars nv tbl zs.
  Proof.
    intros h d d' vars nv zs. induction zs as [|z zs IH]; intros tbl H; [reflexivity|]. cbn [store_zones].
    assert (E : store_zone (set_f_data h d) vars nv tbl z = store_zone (set_f_data h d') vars nv tbl z).
    { unfold store_zone. change (n_glo (set_f_data h ?x)) with (n_glo h). change (z_nodes (set_f_data h ?x)) with (z_nodes h).
      change (z_faces (set_f_data h ?x)) with (z_faces h). change (z_name (set_f_data h ?x)) with (z_name h).
      destruct (locate (n_glo h) tbl 0 (z_nodes h z)) as [tbl'|]; [|reflexivity]. cbn [rbind].
      change (conn_str (set_f_data h d) tbl') with (conn_str (set_f_data h d') tbl').
      destruct (rmap (conn_str (set_f_data h d') tbl') (z_faces h z)); [|reflexivity]. cbn [rbind].
      assert (Em : map (fun e => vals_str (faces_data_slice (set_f_data h d) z e) ++ [sp; nl]) vars =
                   map (fun e => vals_str (faces_data_slice (set_f_data h d') z e) ++ [sp; nl]) vars).
      { apply map_ext. intros v. f_equal. f_equal. unfold faces_data_slice.
        change (z_faces (set_f_data h ?x)) with (z_faces h). apply map_ext_in. intros f Hf.
        unfold face_get. change (f_data (set_f_data h ?x)) with x. rewrite (H z f (or_introl eq_refl) Hf). reflexivity. }
      rewrite Em. reflexivity. }
    rewrite E. destruct (store_zone (set_f_data h d') vars nv tbl z); [|reflexivity]. cbn [rbind].
    rewrite IH by (intros; eapply H; simpl; eauto). reflexivity.
  Qed.

  Lemma store_data : forall h d d', grid_ok h -> (forall f, In f (g_faces h) -> d f = d' f) ->
    store (set_f_data h d) = store (set_f_data h d').
  Proof.
    intros h d d' [Ht Hz] H. unfold store. change (g_faces (set_f_data h ?x)) with (g_faces h).
    destruct (py_get (g_faces h) 0) as [f0|] eqn:E; [|reflexivity]. cbn [rbind].
    change (f_data (set_f_data h ?x)) with x. rewrite (H f0 (py_get_In _ _ _ _ E)).
    change (g_zones (set_f_data h ?x)) with (g_zones h). change (g_nodes (set_f_data h ?x)) with (g_nodes h).
    change (g_name (set_f_data h ?x)) with (g_name h).
    rewrite (store_zones_data h d d'); [reflexivity|]. intros z f Hz' Hf. apply H. apply (zo_faces h Hz z f Hz'). auto.
  Qed.

  (** C28: the order of the txt files does not matter. *)
  Lemma merge_order_main : forall grid_text txts txts' vars rows h hl evs,
    load true grid_text h = (Ok tt, hl) -> file_form [] (file_lines grid_text) evs ->
    no_degenerate (zones_of evs) -> covering (zones_of evs) txts vars rows -> Permutation txts txts' ->
    fst (merge_one grid_text txts' h) = fst (merge_one grid_text txts h).
  Proof.
    intros grid_text txts txts' vars rows h hl evs El Hf Nd (Nv & Lr & Hlen & tables & Ht & P) Pt.
    destruct (loaded_good _ _ _ _ El Hf Nd) as (Hok & _).
    destruct (load_result _ _ _ _ _ El Hf) as [Ld _]. pose proof (faces_count _ _ (ld_zones _ _ _ Ld)) as Ec.
    assert (Ndf : NoDup (g_faces hl)) by (destruct Hok as [[] _]; auto).
    destruct (Permutation_Forall2 Pt Ht) as (tables' & Ptab & Ht').
    assert (P' : Permutation (concat tables') (combine (map Z.of_nat (seq 0 (length rows))) rows)).
    { apply Permutation_trans with (concat tables); [|exact P].
      clear - Ptab. induction Ptab; cbn; auto.
      - apply Permutation_app_head. auto.
      - rewrite !app_assoc. apply Permutation_app_tail, Permutation_app_comm.
      - eapply Permutation_trans; eauto. }
    assert (Hg : forall tabs r, Permutation (concat tabs) (combine (map Z.of_nat (seq 0 (length rows))) rows) ->
      In r (concat tabs) -> exists f, py_get (g_faces hl) (fst r) = Ok f).
    { intros tabs r Pr K. apply (Permutation_in _ Pr) in K. apply nth_combine_seq in K as (j & E & E').
      assert (j < length (g_faces hl)) by (rewrite Ec, <- Lr; apply nth_error_Some; congruence).
      destruct (nth_error (g_faces hl) j) as [f|] eqn:Ej; [|apply nth_error_None in Ej; lia].
      exists f. rewrite E'. apply py_get_nat. auto. }
    unfold merge_one. rewrite !(bind_run _ _ _ _ _ _ _ El).
    rewrite (bind_run _ _ _ _ _ _ _ (calc_files_ok vars txts tables hl Ht (fun r => Hg tables r P))).
    rewrite (bind_run _ _ _ _ _ _ _ (calc_files_ok vars txts' tables' hl Ht' (fun r => Hg tables' r P'))).
    rewrite !bind_gets. unfold lift. cbn [fst].
    apply store_data; auto. intros f Hi. apply In_nth_error in Hi as (i & Hi).
    destruct (nth_error rows i) as [row|] eqn:Er.
    - rewrite !(put_covering (g_faces hl) vars _ rows _ i f row); auto; congruence.
    - apply nth_error_None in Er. assert (i < length (g_faces hl)) by (apply nth_error_Some; congruence). lia.
  Qed.

  Lemma match_files_ok : forall nm fns ms, (forall fn, In fn fns -> exists b, is_filename_correct_crys_txt_file fn nm = Ok b) ->
    sublist_of (fun fn => is_filename_correct_crys_txt_file fn nm = Ok true) fns ms ->
    match_files nm fns = Ok ms.
  Proof.
    intros nm fns ms H S. induction S as [|x l l' Hx S IH|x l l' Hx S IH]; [reflexivity| |]; cbn [match_files];
      rewrite IH by (intros; apply H; simpl; auto).
    - rewrite Hx. reflexivity.
    - destruct (H x (or_introl eq_refl)) as ([|] & E); [contradiction|]. rewrite E. reflexivity.
  Qed.

  Lemma opened_ok : forall d fs txts, opened d fs txts -> rmap (open_in d) fs = Ok txts.
  Proof.
    intros d fs txts H. apply rmap_ok_Forall2. induction H; constructor; auto. unfold open_in. rewrite H. auto.
  Qed.

  Lemma opened_det : forall d fs t1 t2, opened d fs t1 -> opened d fs t2 -> t1 = t2.
  Proof. intros d fs t1 t2 H1 H2. apply opened_ok in H1, H2. congruence. Qed.

  Lemma merge_loop_main : forall nm grid_text d evs gs h0,
    faithful_numbers -> file_form [] (file_lines grid_text) evs ->
    no_degenerate (zones_of evs) -> ~ three_share (zones_of evs) -> faces_in (zones_of evs) <> 0 ->
    title_in evs <> None \/ g_name h0 = [] ->
    (forall tm fs, In (tm, fs) gs -> exists txts vars rows, opened d fs txts /\ covering (zones_of evs) txts vars rows) ->
    exists outs h', merge_loop nm grid_text d gs h0 = (Ok outs, h') /\
      Forall2 (fun g out => fst out = nm ++ lit "_r_" ++ fst g ++ lit ".dat" /\
        forall txts vars rows, opened d (snd g) txts -> covering (zones_of evs) txts vars rows ->
        forall h1, exists h2, load true (snd out) h1 = (Ok tt, h2) /\
          merged_grid (titled evs) (zones_of evs) vars rows h2) gs outs.
  Proof.
    intros nm grid_text d evs gs h0 Hn Hf Nd T3 Nf. revert h0.
    induction gs as [|[tm fs] gs IH]; intros h0 Ht Hg.
    - exists [], h0. split; [reflexivity|constructor].
    - destruct (Hg tm fs (or_introl eq_refl)) as (txts & vars & rows & Ho & Hc).
      destruct (load_accepts_main true grid_text h0 evs Hf Nd T3 (or_introl eq_refl)) as (hl & El).
      destruct (load_result _ _ _ _ _ El Hf) as [_ Nm].
      assert (Nm' : g_name hl = titled evs).
      { rewrite Nm. unfold title_after, titled. destruct (title_in evs); [auto|]. destruct Ht; congruence. }
      destruct (loaded_names _ _ _ _ _ El Hf) as (_ & _ & Pn).
      assert (Hp : plain_name (g_name hl)). { apply Pn. destruct Ht as [Ht|Ht]; auto. right. rewrite Ht. intros c []. }
      destruct (merge_one_main grid_text txts vars rows h0 hl evs Hn El Hf Nd Nf Hp Hc) as (text & h1 & E1 & Eh1 & _).
      destruct (IH h1) as (outs & h' & E2 & H2).
      { rewrite Eh1. change (g_name (set_f_data hl (f_data h1))) with (g_name hl). rewrite Nm'. unfold titled.
        destruct (title_in evs); [left; discriminate|auto]. }
      { intros; eapply Hg; simpl; eauto. }
      exists ((nm ++ lit "_r_" ++ tm ++ lit ".dat", text) :: outs), h'. split.
      + cbn [merge_loop]. rewrite (opened_ok _ _ _ Ho), bind_lift_ok, (bind_run _ _ _ _ _ _ _ E1), (bind_run _ _ _ _ _ _ _ E2).
        reflexivity.
      + constructor; [|exact H2]. cbn [fst snd]. split; [reflexivity|].
        intros txts' vars' rows' Ho' Hc'. rewrite (opened_det _ _ _ _ Ho' Ho) in Hc'.
        destruct (merge_one_main grid_text txts vars' rows' h0 hl evs Hn El Hf Nd Nf Hp Hc') as (text' & h1' & E1' & _ & K).
        rewrite E1 in E1'. injection E1' as <- <-. rewrite <- Nm'. exact K.
  Qed.

  Lemma merge_main : forall nm grid_text d ms evs h0,
    faithful_numbers -> file_form [] (file_lines grid_text) evs ->
    no_degenerate (zones_of evs) -> ~ three_share (zones_of evs) -> faces_in (zones_of evs) <> 0 ->
    (forall fn, In fn (map fst d) -> exists b, is_filename_correct_crys_txt_file fn nm = Ok b) ->
    sublist_of (fun fn => is_filename_correct_crys_txt_file fn nm = Ok true) (map fst d) ms ->
    (forall tm fs, In (tm, fs) (group_txt_files_by_timestamps ms) ->
       exists txts vars rows, opened d fs txts /\ covering (zones_of evs) txts vars rows) ->
    exists outs h', merge nm grid_text d h0 = (Ok outs, h') /\
      Forall2 (fun g out => fst out = nm ++ lit "_r_" ++ fst g ++ lit ".dat" /\
        forall txts vars rows, opened d (snd g) txts -> covering (zones_of evs) txts vars rows ->
        forall h1, exists h2, load true (snd out) h1 = (Ok tt, h2) /\
          merged_grid (titled evs) (zones_of evs) vars rows h2) (group_txt_files_by_timestamps ms) outs.
  Proof.
    intros nm grid_text d ms evs h0 Hn Hf Nd T3 Nf Hb Hs Hg. unfold merge.
    rewrite (match_files_ok nm _ _ Hb Hs), bind_lift_ok, bind_modify.
    apply merge_loop_main; auto.
  Qed.
End Merge.
