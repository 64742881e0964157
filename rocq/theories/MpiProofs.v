(** Proofs about the MPI files. *)

From Coq Require Import ZArith NArith Bool Lia List Permutation.
From Verif Require Import Py PyLemmas Heap GridModel GridSpec DecompProofs Zam ZamSpec ZamProofs Mpi MpiSpec.
Import ListNotations.
Open Scope list_scope.
Open Scope nat_scope.

(* ------------------------------------------------------------------ *)
(** * Tables of local identifiers *)

(** Different objects of the list have different identifiers within the table. *)
Definition glo_ok (glo : nat -> Z) (n : nat) (l : list nat) : Prop :=
  NoDup (map glo l) /\ forall x, In x l -> (0 <= glo x < Z.of_nat n)%Z.

Lemma Forall2_len : forall A B (R : A -> B -> Prop) l l', Forall2 R l l' -> length l = length l'.
Proof. intros. induction H; cbn; auto. Qed.

Lemma glo_ok_cons : forall glo n x l, glo_ok glo n (x :: l) ->
  glo_ok glo n l /\ (0 <= glo x < Z.of_nat n)%Z /\ (forall y, In y l -> glo y <> glo x).
Proof.
  intros glo n x l [Hnd Hr]. cbn in Hnd. apply NoDup_cons_iff in Hnd as [Hn Hnd].
  split; [split; [auto|]; intros; apply Hr; simpl; auto|]. split; [apply Hr; simpl; auto|].
  intros y Hy E. apply Hn. rewrite <- E. apply in_map. auto.
Qed.

Lemma py_get_list_set : forall (tbl : list Z) i j v, (0 <= i < Z.of_nat (length tbl))%Z ->
  (0 <= j < Z.of_nat (length tbl))%Z ->
  py_get (list_set tbl (Z.to_nat i) v) j = if (j =? i)%Z then Ok v else py_get tbl j.
Proof.
  intros tbl i j v Hi Hj. unfold py_get. rewrite list_set_length, !py_index_nonneg by lia.
  rewrite nth_error_list_set. destruct (Z.eqb_spec j i) as [->|Hne].
  - destruct (Nat.eq_dec (Z.to_nat i) (Z.to_nat i)); [|congruence].
    destruct (Nat.ltb_spec (Z.to_nat i) (length tbl)); [auto|lia].
  - destruct (Nat.eq_dec (Z.to_nat j) (Z.to_nat i)); [lia|auto].
Qed.

Lemma locate_ok : forall glo l tbl i, glo_ok glo (length tbl) l ->
  exists t, locate glo tbl i l = Ok t /\ length t = length tbl /\
    (forall k x, nth_error l k = Some x -> py_get t (glo x) = Ok (Z.of_nat (i + k))) /\
    (forall g, (0 <= g < Z.of_nat (length tbl))%Z -> (forall x, In x l -> glo x <> g) -> py_get t g = py_get tbl g).
Proof.
  induction l as [|x l IH]; intros tbl i H; cbn [locate].
  - exists tbl. split; [auto|]. split; [auto|]. split; [|auto]. intros [|k] y Hy; discriminate.
  - apply glo_ok_cons in H as (H & Hx & Hd). unfold py_set at 1. rewrite py_index_nonneg by lia.
    cbn [rbind]. destruct (IH (list_set tbl (Z.to_nat (glo x)) (Z.of_nat i)) (S i)) as (t & Et & El & H1 & H2).
    { rewrite list_set_length. auto. }
    rewrite list_set_length in *. exists t. split; [auto|]. split; [auto|]. split.
    + intros [|k] y Hy; cbn in Hy.
      * inv Hy. rewrite H2 by auto. rewrite py_get_list_set by lia. rewrite Z.eqb_refl. do 2 f_equal. lia.
      * rewrite (H1 k y Hy). do 2 f_equal. lia.
    + intros g Hg Hn. rewrite H2 by (auto; intros y Hy; apply Hn; simpl; auto).
      rewrite py_get_list_set by lia. destruct (Z.eqb_spec g (glo x)) as [->|]; [|auto].
      exfalso. apply (Hn x); simpl; auto.
Qed.

Lemma local_ids_ok : forall glo l t, (forall k x, nth_error l k = Some x -> py_get t (glo x) = Ok (Z.of_nat k)) ->
  forall xs, incl xs l -> exists ks, local_ids glo t xs = Ok ks /\ positions l xs ks.
Proof.
  intros glo l t H. induction xs as [|x xs IH]; intros Hi.
  - exists []. split; [auto|constructor].
  - destruct IH as (ks & Ek & Hk); [intros y Hy; apply Hi; simpl; auto|].
    destruct (In_nth_error l x) as (k & Hkx); [apply Hi; simpl; auto|].
    exists (Z.of_nat k :: ks). unfold local_ids in *. cbn [rmap]. rewrite (H k x Hkx). cbn [rbind].
    rewrite Ek. split; [auto|]. constructor; [|auto]. split; [lia|]. rewrite Nat2Z.id. auto.
Qed.

Lemma local_rows_ok : forall B glo l t (row : B -> list nat),
  (forall k x, nth_error l k = Some x -> py_get t (glo x) = Ok (Z.of_nat k)) ->
  forall bs, (forall b, In b bs -> incl (row b) l) ->
  exists kss, rmap (fun b => local_ids glo t (row b)) bs = Ok kss /\ position_rows l row bs kss.
Proof.
  intros B glo l t row H. induction bs as [|b bs IH]; intros Hi.
  - exists []. split; [auto|constructor].
  - destruct IH as (kss & Ek & Hk); [intros; apply Hi; simpl; auto|].
    destruct (local_ids_ok glo l t H (row b)) as (ks & E1 & H1); [apply Hi; simpl; auto|].
    exists (ks :: kss). cbn [rmap]. rewrite E1. cbn [rbind]. rewrite Ek. split; [auto|]. constructor; auto.
Qed.

Lemma map_nodup_sub : forall A (f : A -> Z) p l l', sublist_of p l l' -> NoDup (map f l) -> NoDup (map f l').
Proof.
  intros A f p l l' H. induction H; intros Hn; cbn in *; auto.
  - apply NoDup_cons_iff in Hn as [Hn Hd]. constructor; auto. intros Hin. apply Hn.
    apply in_map_iff in Hin as (y & Ey & Hy). apply in_map_iff. exists y. split; [auto|].
    apply (sublist_In _ _ _ _ y H0). auto.
  - apply NoDup_cons_iff in Hn as [_ Hn]. auto.
Qed.

Lemma glo_ok_perm : forall glo l p l', Permutation (map glo l) (map Z.of_nat (seq 0 (length l))) ->
  sublist_of p l l' -> glo_ok glo (length l) l'.
Proof.
  intros glo l p l' Hp Hs. split.
  - eapply map_nodup_sub; eauto. apply (Permutation_NoDup (Permutation_sym Hp)).
    apply FinFun.Injective_map_NoDup; [|apply seq_NoDup]. intros x y Hxy. lia.
  - intros x Hx. assert (Hin : In (glo x) (map glo l)).
    { apply in_map. apply (sublist_In _ _ _ _ x Hs). auto. }
    apply (Permutation_in _ Hp) in Hin. apply in_map_iff in Hin as (k & Ek & Hk). apply in_seq in Hk. lia.
Qed.

Section MpiProofs.
  Context {F : FloatOps}.

  Lemma is_connect_joins : forall h e z y, is_connect_zones h e z y = true <-> joins h z y e.
  Proof.
    intros h e z y. unfold is_connect_zones, joins. split.
    - destruct (e_faces h e) as [|f [|g [|k r]]]; try discriminate. intros H.
      assert (Hoz : forall x f, ozone_eqb (Some x) (f_zone h f) = true -> f_zone h f = Some x).
      { intros x f0 Hx. destruct (f_zone h f0); cbn in Hx; [|discriminate]. apply Nat.eqb_eq in Hx. congruence. }
      apply orb_true_iff in H as [H|H]; apply andb_true_iff in H as [H1 H2].
      + exists f, g. auto.
      + exists g, f. auto.
    - intros (f & g & [E|E] & Hf & Hg); rewrite E, Hf, Hg; cbn; rewrite !Nat.eqb_refl; auto.
      apply orb_true_r.
  Qed.

  Lemma joins_in : forall h z y e, joins h z y e -> some_face_in h (e_faces h e) z.
  Proof.
    intros h z y e (f & g & [E|E] & Hf & Hg); exists f; rewrite E; simpl; auto.
  Qed.

  Lemma joins_sym : forall h z y e, joins h z y e -> joins h y z e.
  Proof. intros h z y e (f & g & E & Hf & Hg). exists g, f. tauto. Qed.

  (** Filtering the zone's edges is filtering all edges. *)
  Lemma sublist_sub : forall A (p q : A -> Prop) l l' l'', sublist_of p l l' -> (forall x, q x -> p x) ->
    sublist_of q l' l'' -> sublist_of q l l''.
  Proof.
    intros A p q l l' l'' H Hpq. revert l''. induction H; intros l'' H2; auto.
    - inv H2; constructor; auto.
    - apply sub_drop; auto.
  Qed.

  Lemma connect_list : forall h z y, zone_lists_ok h -> In z (g_zones h) ->
    sublist_of (joins h z y) (g_edges h) (filter (fun e => is_connect_zones h e z y) (z_edges h z)).
  Proof.
    intros h z y Hl Hz. destruct (Hl z Hz) as [_ He].
    apply (sublist_sub _ (fun e => some_face_in h (e_faces h e) z) _ _ (z_edges h z)); auto.
    - apply joins_in.
    - apply sublist_filter. intros e _. apply is_connect_joins.
  Qed.

  (* ---------------------------------------------------------------- *)
  (** * Lists of borders *)

  (** What the list of borders of the zone at position [i] should be. *)
  Definition borders_ok (h : heap) (i z : nat) (bs : list (nat * list Z)) : Prop :=
    NoDup (map fst bs) /\
    forall j ks, In (j, ks) bs <->
      exists y L, nth_error (g_zones h) j = Some y /\ j <> i /\
        sublist_of (joins h z y) (g_edges h) L /\ L <> [] /\ positions (z_edges h z) L ks.

  Lemma positions_fun : forall A (l xs : list A) ks ks', NoDup l -> positions l xs ks -> positions l xs ks' -> ks = ks'.
  Proof.
    intros A l xs ks ks' Hn H. revert ks'. induction H as [|x k xs ks [Hk Hx] _ IH]; intros ks' H'.
    - inversion H'. auto.
    - inversion H' as [|x' k' xs' ks'' [Hk' Hx'] H2]. subst. f_equal; [|auto].
      assert (Z.to_nat k = Z.to_nat k').
      { eapply (proj1 (NoDup_nth_error l)); eauto; [apply nth_error_Some|]; congruence. }
      lia.
  Qed.

  Lemma border_lists_gen : forall h tbl i z (g : nat -> nat), zone_lists_ok h -> NoDup (z_edges h z) ->
    nth_error (g_zones h) i = Some z ->
    (forall k x, nth_error (z_edges h z) k = Some x -> py_get tbl (e_glo h x) = Ok (Z.of_nat k)) ->
    forall n s, s + n <= length (g_zones h) ->
    (forall j y, nth_error (g_zones h) j = Some y -> j <> i -> counts (joins h z y) (g_edges h) (g j)) ->
    exists bs,
      border_lists h tbl z s (map (fun j => if j =? i then 0 else g j) (seq s n) ++ [0]) = Ok bs /\
      NoDup (map fst bs) /\ (forall j ks, In (j, ks) bs -> s <= j) /\
      list_sum (map (fun b => length (snd b)) bs) = list_sum (map (fun j => if j =? i then 0 else g j) (seq s n)) /\
      length bs = length (filter (fun x => 0 <? x) (map (fun j => if j =? i then 0 else g j) (seq s n))) /\
      forall j ks, In (j, ks) bs <-> s <= j < s + n /\
        exists y L, nth_error (g_zones h) j = Some y /\ j <> i /\
        sublist_of (joins h z y) (g_edges h) L /\ L <> [] /\ positions (z_edges h z) L ks.
  Proof.
    intros h tbl i z g Hl Hnd Hi Ht. assert (Hz : In z (g_zones h)) by (eapply nth_error_In; eauto).
    induction n as [|n IH]; intros s Hs Hg.
    - cbn. exists []. split; [auto|]. split; [constructor|]. split; [intros j ks []|]. split; [auto|]. split; [auto|].
      intros j ks. split; [intros []|]. intros [H _]. lia.
    - destruct (IH (S s)) as (bs & Eb & Hb1 & Hb2 & Hb3 & Hb4 & Hb5); [lia|auto|].
      cbn [seq map app border_lists filter]. rewrite !lsum_cons.
      destruct (Nat.eqb_spec s i) as [->|Hne].
      + cbn [Nat.ltb Nat.leb]. exists bs. split; [auto|]. split; [auto|].
        split; [intros j ks Hj; specialize (Hb2 j ks Hj); lia|]. split; [auto|]. split; [auto|].
        intros j ks. rewrite Hb5. split; intros [H1 (y & L & H2 & H3 & H4)]; (split; [lia|]); exists y, L; auto.
      + destruct (nth_error (g_zones h) s) as [y|] eqn:Ey.
        2:{ apply nth_error_None in Ey. lia. }
        pose proof (connect_list h z y Hl Hz) as Hc.
        set (L := filter (fun e => is_connect_zones h e z y) (z_edges h z)) in *.
        assert (Eg : g s = length L).
        { apply (counts_unique _ (joins h z y) (g_edges h)); [apply Hg; auto|]. exists L. auto. }
        destruct (Nat.ltb_spec 0 (g s)) as [Hp|Hp].
        * rewrite (py_get_nat _ _ _ y Ey). cbn [rbind]. fold L.
          destruct (local_ids_ok (e_glo h) (z_edges h z) tbl Ht L) as (ks & Ek & Hk).
          { intros x Hx. apply filter_In in Hx. tauto. }
          rewrite Ek. cbn [rbind]. rewrite Eb. cbn [rbind].
          assert (Hlen : length ks = length L) by (symmetry; eapply Forall2_len; eauto).
          exists ((s, ks) :: bs). split; [auto|]. cbn [map fst snd length]. rewrite lsum_cons.
          split. { constructor; auto. intros Hin. apply in_map_iff in Hin as ([j ks'] & Ej & Hj).
                   cbn in Ej. subst j. specialize (Hb2 s ks' Hj). lia. }
          split. { intros j ks' [E|Hj]; [inv E; lia|]. specialize (Hb2 j ks' Hj). lia. }
          split; [lia|]. split; [cbn; auto|].
          intros j ks'. split.
          -- intros [E|Hj].
             ++ inv E. split; [lia|]. exists y, L. split; [auto|]. split; [auto|]. split; [auto|].
                split; [|auto]. intros E0. rewrite E0 in Eg. cbn in Eg. lia.
             ++ apply Hb5 in Hj as [H1 (y' & L' & H2)]. split; [lia|]. exists y', L'. auto.
          -- intros [H1 (y' & L' & H2 & H3 & H4 & H5 & H6)].
             destruct (Nat.eq_dec j s) as [->|Hjs].
             ++ left. assert (y' = y) by congruence. subst y'.
                rewrite (sublist_unique _ _ _ _ _ H4 Hc) in H6. f_equal. exact (positions_fun _ _ _ _ _ Hnd Hk H6).
             ++ right. apply Hb5. split; [lia|]. exists y', L'. auto.
        * exists bs. split; [auto|]. split; [auto|].
          split; [intros j ks Hj; specialize (Hb2 j ks Hj); lia|]. split; [lia|]. split; [auto|].
          intros j ks. rewrite Hb5. split; intros [H1 (y' & L' & H2 & H3 & H4 & H5 & H6)].
          -- split; [lia|]. exists y', L'. auto.
          -- destruct (Nat.eq_dec j s) as [->|Hjs].
             ++ exfalso. assert (y' = y) by congruence. subst y'.
                rewrite (sublist_unique _ _ _ _ _ H4 Hc) in H5. apply H5. apply length_zero_iff_nil. lia.
             ++ split; [lia|]. exists y', L'. auto.
  Qed.

  (** The line of the matrix of a grid. *)
  Lemma grid_array : forall h a i, grid_ok h -> zam_build h (g_edges h) (g_zones h) = Ok a ->
    i < length (g_zones h) -> exists g,
      (forall j y z, nth_error (g_zones h) i = Some z -> nth_error (g_zones h) j = Some y ->
         counts (joins h z y) (g_edges h) (g j)) /\
      zone_cross_edges_array a (Z.of_nat i) =
        Ok (map (fun j => if j =? i then 0 else g j) (seq 0 (length (g_zones h))) ++ [0]).
  Proof.
    intros h a i Hok Ha Hi. destruct (grid_edges_in_zones h Hok) as [Hnd He].
    rewrite (zam_build_mat h (g_zones h) Hnd (g_edges h) He) in Ha. inv Ha.
    exists (fun j => cnt (hitb h (g_zones h) i j) (g_edges h)). split.
    - intros j y z Hz Hy. apply cnt_counts. intros e _. apply (hitb_joins h (g_zones h) Hnd i j z y e); auto.
    - rewrite array_mat by auto. f_equal. rewrite seq_S, map_app. cbn [Nat.add map]. rewrite Nat.eqb_refl.
      cbn [orb]. f_equal. apply map_seq_ext. intros j Hj. destruct (Nat.eqb_spec j (length (g_zones h))); [lia|auto].
  Qed.

  Lemma filter_app_zero : forall l, filter (fun x => 0 <? x) (l ++ [0]) = filter (fun x => 0 <? x) l.
  Proof. intros. rewrite filter_app. cbn. apply app_nil_r. Qed.

  Lemma borders_main : forall h a i z tbl, grid_ok h -> zone_lists_ok h ->
    zam_build h (g_edges h) (g_zones h) = Ok a -> nth_error (g_zones h) i = Some z ->
    (forall k x, nth_error (z_edges h z) k = Some x -> py_get tbl (e_glo h x) = Ok (Z.of_nat k)) ->
    exists line bs, zone_cross_edges_array a (Z.of_nat i) = Ok line /\
      border_lists h tbl z 0 line = Ok bs /\ borders_ok h i z bs /\
      zone_cross_edges_count a (Z.of_nat i) = Ok (list_sum (map (fun b => length (snd b)) bs)) /\
      zone_cross_borders_count a (Z.of_nat i) = Ok (length bs).
  Proof.
    intros h a i z tbl Hok Hl Ha Hi Ht.
    assert (Hin : i < length (g_zones h)) by (apply nth_error_Some; congruence).
    destruct (grid_array h a i Hok Ha Hin) as (g & Hg & Earr).
    assert (Hnd : NoDup (z_edges h z)).
    { destruct (Hl z (nth_error_In _ _ Hi)) as [_ He]. eapply sublist_NoDup; eauto. apply (t_edges_nd h (proj1 Hok)). }
    destruct (border_lists_gen h tbl i z g Hl Hnd Hi Ht (length (g_zones h)) 0) as (bs & Eb & H1 & _ & H3 & H4 & H5); [lia| |].
    { intros j y Hj Hne. apply Hg; auto. }
    exists (map (fun j => if j =? i then 0 else g j) (seq 0 (length (g_zones h))) ++ [0]), bs.
    split; [auto|]. split; [auto|]. split.
    { split; [auto|]. intros j ks. rewrite H5. split; [tauto|]. intros (y & L & H). split; [|exists y, L; auto].
      destruct H as [H _]. assert (j < length (g_zones h)) by (apply nth_error_Some; congruence). lia. }
    unfold zone_cross_edges_count, zone_cross_borders_count. rewrite Earr. cbn [rbind]. split.
    - f_equal. rewrite list_sum_app, H3. cbn. lia.
    - f_equal. rewrite filter_app_zero. auto.
  Qed.

  (* ---------------------------------------------------------------- *)
  (** * Files *)

  (** What the file of the zone [z] at position [i] should contain. *)
  Definition file_ok (h : heap) (i z : nat) (m : mpi_file) : Prop :=
    mf_title m = z_name h z /\ mf_mpi m = i /\
    mf_nodes m = length (z_nodes h z) /\ mf_edges m = length (z_edges h z) /\ mf_faces m = length (z_faces h z) /\
    mf_coords m = map (fun c => map (fun n => coord c (n_p h n)) (z_nodes h z)) [0; 1; 2] /\
    mf_gloids m = map (f_glo h) (z_faces h z) /\
    mf_data m = map (fun e => map (fun f => face_get h f e) (z_faces h z)) mpi_vars /\
    position_rows (z_nodes h z) (f_nodes h) (z_faces h z) (mf_fn m) /\
    position_rows (z_edges h z) (f_edges h) (z_faces h z) (mf_fe m) /\
    position_rows (z_nodes h z) (e_nodes h) (z_edges h z) (mf_en m) /\
    mf_cross m = list_sum (map (fun b => length (snd b)) (mf_borders m)) /\
    mf_nborders m = length (mf_borders m) /\
    borders_ok h i z (mf_borders m).

  Lemma zone_face_incl : forall h z f, grid_ok h -> zone_lists_ok h -> In z (g_zones h) -> In f (z_faces h z) ->
    incl (f_nodes h f) (z_nodes h z) /\ incl (f_edges h f) (z_edges h z).
  Proof.
    intros h z f [Ht Hzo] Hl Hz Hf. destruct (Hl z Hz) as [H1 H2].
    apply (zo_faces h Hzo z f Hz) in Hf as [Hf Ez]. split.
    - intros n Hn. apply (sublist_In _ _ _ _ n H1). split.
      + apply (t_face_nodes h Ht f Hf). auto.
      + exists f. split; auto. apply (t_nf h Ht n f); auto. apply (t_face_nodes h Ht f Hf). auto.
    - intros e He. apply (sublist_In _ _ _ _ e H2). split.
      + apply (t_face_edges h Ht f Hf). auto.
      + exists f. split; auto. apply (t_ef h Ht e f); auto. apply (t_face_edges h Ht f Hf). auto.
  Qed.

  Lemma zone_edge_incl : forall h z e, grid_ok h -> zone_lists_ok h -> In z (g_zones h) -> In e (z_edges h z) ->
    incl (e_nodes h e) (z_nodes h z).
  Proof.
    intros h z e [Ht Hzo] Hl Hz He. destruct (Hl z Hz) as [H1 H2].
    apply (sublist_In _ _ _ _ e H2) in He as [He (f & Hf & Ez)].
    assert (Hfg : In f (g_faces h)) by (apply (t_edge_faces h Ht e He); auto).
    intros n Hn. apply (sublist_In _ _ _ _ n H1). split; [apply (t_edge_nodes h Ht e He); auto|].
    exists f. split; [|auto]. apply (t_nf h Ht n f); [apply (t_edge_nodes h Ht e He); auto|auto|].
    apply (t_tri h Ht f e); auto. apply (t_ef h Ht e f); auto.
  Qed.

  Lemma mpi_zone_ok : forall h a tn te i z, grid_ok h -> zone_lists_ok h -> numbered h ->
    zam_build h (g_edges h) (g_zones h) = Ok a -> nth_error (g_zones h) i = Some z ->
    length tn = length (g_nodes h) -> length te = length (g_edges h) ->
    exists m tn' te', mpi_zone h a tn te i z = Ok (m, (tn', te')) /\ file_ok h i z m /\
      length tn' = length (g_nodes h) /\ length te' = length (g_edges h).
  Proof.
    intros h a tn te i z Hok Hl (Pn & Pe & _) Ha Hi Ltn Lte.
    assert (Hz : In z (g_zones h)) by (eapply nth_error_In; eauto).
    destruct (Hl z Hz) as [Sn Se].
    destruct (locate_ok (n_glo h) (z_nodes h z) tn 0) as (tn' & Etn & Ltn' & Htn & _).
    { rewrite Ltn. eapply glo_ok_perm; eauto. }
    destruct (locate_ok (e_glo h) (z_edges h z) te 0) as (te' & Ete & Lte' & Hte & _).
    { rewrite Lte. eapply glo_ok_perm; eauto. }
    destruct (local_rows_ok nat (n_glo h) (z_nodes h z) tn' (f_nodes h) Htn (z_faces h z)) as (fn & Efn & Hfn).
    { intros f Hf. apply (zone_face_incl h z f); auto. }
    destruct (local_rows_ok nat (e_glo h) (z_edges h z) te' (f_edges h) Hte (z_faces h z)) as (fe & Efe & Hfe).
    { intros f Hf. apply (zone_face_incl h z f); auto. }
    destruct (local_rows_ok nat (n_glo h) (z_nodes h z) tn' (e_nodes h) Htn (z_edges h z)) as (en & Een & Hen).
    { intros e He. apply (zone_edge_incl h z e); auto. }
    destruct (borders_main h a i z te' Hok Hl Ha Hi Hte) as (line & bs & El & Ebs & Hbs & Ec & Eb).
    unfold mpi_zone. rewrite Ec. cbn [rbind]. rewrite Etn. cbn [rbind]. rewrite Ete. cbn [rbind].
    rewrite Efn. cbn [rbind]. rewrite Efe. cbn [rbind]. rewrite Een. cbn [rbind]. rewrite Eb. cbn [rbind].
    rewrite El. cbn [rbind]. rewrite Ebs. cbn [rbind].
    eexists _, tn', te'. split; [reflexivity|]. split; [|split; congruence].
    unfold file_ok. cbn. repeat (split; [auto; fail|]). auto.
  Qed.

  Lemma mpi_zones_ok : forall h a zs pre tn te, grid_ok h -> zone_lists_ok h -> numbered h ->
    zam_build h (g_edges h) (g_zones h) = Ok a -> g_zones h = pre ++ zs ->
    length tn = length (g_nodes h) -> length te = length (g_edges h) ->
    exists ms, mpi_zones h a tn te (length pre) zs = Ok ms /\ length ms = length zs /\
      forall k z m, nth_error zs k = Some z -> nth_error ms k = Some m -> file_ok h (length pre + k) z m.
  Proof.
    intros h a zs. induction zs as [|z zs IH]; intros pre tn te Hok Hl Hn Ha Ez Ltn Lte; cbn [mpi_zones].
    - exists []. split; [auto|]. split; [auto|]. intros [|k] z m Hz; discriminate.
    - destruct (mpi_zone_ok h a tn te (length pre) z) as (m & tn' & te' & Em & Hm & L1 & L2); auto.
      { rewrite Ez, nth_error_app2, Nat.sub_diag by lia. auto. }
      rewrite Em. cbn [rbind].
      destruct (IH (pre ++ [z]) tn' te') as (ms & Ems & Lms & Hms); auto.
      { rewrite <- app_assoc. auto. }
      rewrite app_length in Ems, Hms. cbn [length] in Ems, Hms.
      replace (length pre + 1) with (S (length pre)) in Ems by lia. rewrite Ems. cbn [rbind].
      exists (m :: ms). split; [auto|]. split; [cbn; auto|].
      intros [|k] z' m' Hz Hm'; cbn in Hz, Hm'.
      + inv Hz. inv Hm'. rewrite Nat.add_0_r. auto.
      + specialize (Hms k z' m' Hz Hm'). replace (length pre + S k) with (length pre + 1 + k) by lia. auto.
  Qed.

  Lemma store_mpi_ok : forall h, grid_ok h -> zone_lists_ok h -> numbered h ->
    exists ms, store_mpi_files h = Ok ms /\ length ms = length (g_zones h) /\
      forall i z m, nth_error (g_zones h) i = Some z -> nth_error ms i = Some m -> file_ok h i z m.
  Proof.
    intros h Hok Hl Hn. destruct (grid_edges_in_zones h Hok) as [Hnd He].
    destruct (zam_main h (g_edges h) (g_zones h) Hnd He) as (a & Ha & _).
    unfold store_mpi_files. rewrite Ha. cbn [rbind].
    destruct (mpi_zones_ok h a (g_zones h) [] (repeat (-1)%Z (length (g_nodes h)))
                (repeat (-1)%Z (length (g_edges h)))) as (ms & Em & L & H); auto using repeat_length.
    exists ms. auto.
  Qed.

  (** crys.get_mpi_borders computes the same lists. *)
  Lemma get_mpi_borders_ok : forall h a i z, grid_ok h -> zone_lists_ok h -> numbered h ->
    zam_build h (g_edges h) (g_zones h) = Ok a -> nth_error (g_zones h) i = Some z ->
    exists bs, get_mpi_borders h i a z = Ok bs /\ borders_ok h i z bs.
  Proof.
    intros h a i z Hok Hl (Pn & Pe & _) Ha Hi. unfold get_mpi_borders.
    destruct (Hl z (nth_error_In _ _ Hi)) as [Sn Se].
    destruct (locate_ok (e_glo h) (z_edges h z) (repeat (-1)%Z (length (g_edges h))) 0) as (te & Ete & _ & Hte & _).
    { rewrite repeat_length. eapply glo_ok_perm; eauto. }
    destruct (borders_main h a i z te Hok Hl Ha Hi Hte) as (line & bs & El & Ebs & Hbs & _).
    rewrite El. cbn [rbind]. rewrite Ete. cbn [rbind]. exists bs. auto.
  Qed.

  (* ---------------------------------------------------------------- *)
  (** * Final forms *)

  Lemma mpi_match_main : forall h, grid_ok h -> zone_lists_ok h -> numbered h ->
    exists ms, store_mpi_files h = Ok ms /\ length ms = length (g_zones h) /\
      forall i j z y mi mj, i <> j ->
        nth_error (g_zones h) i = Some z -> nth_error (g_zones h) j = Some y ->
        nth_error ms i = Some mi -> nth_error ms j = Some mj ->
        exists L, sublist_of (joins h z y) (g_edges h) L /\
          (L = [] -> (forall ks, ~ In (j, ks) (mf_borders mi)) /\ (forall ks, ~ In (i, ks) (mf_borders mj))) /\
          (L <> [] -> exists ki kj, In (j, ki) (mf_borders mi) /\ In (i, kj) (mf_borders mj) /\
             positions (z_edges h z) L ki /\ positions (z_edges h y) L kj).
  Proof.
    intros h Hok Hl Hn. destruct (store_mpi_ok h Hok Hl Hn) as (ms & Em & Lm & Hm).
    exists ms. split; [auto|]. split; [auto|]. intros i j z y mi mj Hne Hi Hj Hmi Hmj.
    assert (Hz : In z (g_zones h)) by (eapply nth_error_In; eauto).
    assert (Hy : In y (g_zones h)) by (eapply nth_error_In; eauto).
    pose proof (connect_list h z y Hl Hz) as HL. pose proof (connect_list h y z Hl Hy) as HL'.
    set (L := filter (fun e => is_connect_zones h e z y) (z_edges h z)) in *.
    set (L' := filter (fun e => is_connect_zones h e y z) (z_edges h y)) in *.
    assert (HLL : sublist_of (joins h y z) (g_edges h) L).
    { clear -HL. induction HL; constructor; auto using joins_sym. }
    assert (EL : L' = L) by (eapply sublist_unique; eauto).
    destruct (Hm i z mi Hi Hmi) as (_ & _ & _ & _ & _ & _ & _ & _ & _ & _ & _ & _ & _ & Bi).
    destruct (Hm j y mj Hj Hmj) as (_ & _ & _ & _ & _ & _ & _ & _ & _ & _ & _ & _ & _ & Bj).
    exists L. split; [auto|]. split.
    - intros E0. split; intros ks Hin.
      + apply Bi in Hin as (y' & L2 & H1 & _ & H2 & H3 & _). assert (y' = y) by congruence. subst y'.
        apply H3. rewrite <- E0. eapply sublist_unique; eauto.
      + apply Bj in Hin as (z' & L2 & H1 & _ & H2 & H3 & _). assert (z' = z) by congruence. subst z'.
        apply H3. rewrite <- E0. eapply sublist_unique; eauto.
    - intros Hne0.
      assert (P : forall z0 xs, incl xs (z_edges h z0) -> exists ks, positions (z_edges h z0) xs ks).
      { intros z0. induction xs as [|x xs IH]; intros Hx; [exists []; constructor|].
        destruct IH as (ks & Hk); [intros e He; apply Hx; simpl; auto|].
        destruct (In_nth_error (z_edges h z0) x) as (k & Hkx); [apply Hx; simpl; auto|].
        exists (Z.of_nat k :: ks). constructor; auto. split; [lia|]. rewrite Nat2Z.id. auto. }
      destruct (P z L) as (ki & Hki); [intros e He; apply filter_In in He; tauto|].
      destruct (P y L) as (kj & Hkj); [rewrite <- EL; intros e He; apply filter_In in He; tauto|].
      exists ki, kj. split; [apply Bi; exists y, L; auto|]. split; [apply Bj; exists z, L; auto|]. auto.
  Qed.

  Lemma mpi_listed_main : forall h ms i z mi, grid_ok h -> zone_lists_ok h -> numbered h ->
    store_mpi_files h = Ok ms -> nth_error (g_zones h) i = Some z -> nth_error ms i = Some mi ->
    NoDup (map fst (mf_borders mi)) /\
    forall j ks, In (j, ks) (mf_borders mi) -> j <> i /\ ks <> [] /\
      exists y, nth_error (g_zones h) j = Some y /\
        (forall k, In k ks -> exists e, (0 <= k)%Z /\ nth_error (z_edges h z) (Z.to_nat k) = Some e /\ joins h z y e) /\
        (forall e, In e (g_edges h) -> joins h z y e ->
           exists k, In k ks /\ nth_error (z_edges h z) (Z.to_nat k) = Some e).
  Proof.
    intros h ms i z mi Hok Hl Hn Em Hi Hmi. destruct (store_mpi_ok h Hok Hl Hn) as (ms' & Em' & Lm & Hm).
    assert (ms' = ms) by congruence. subst ms'.
    destruct (Hm i z mi Hi Hmi) as (_ & _ & _ & _ & _ & _ & _ & _ & _ & _ & _ & _ & _ & Bi).
    destruct Bi as [Hnd Bi]. split; [auto|]. intros j ks Hin. apply Bi in Hin as (y & L & Hy & Hne & HL & Hn0 & Hp).
    split; [auto|]. split.
    { intros ->. inversion Hp. congruence. }
    exists y. split; [auto|].
    assert (Hs : forall e, In e L <-> In e (g_edges h) /\ joins h z y e) by (intros; apply (sublist_In _ _ _ _ e HL)).
    split.
    - intros k Hk. clear - Hp Hk Hs.
      assert (G : forall xs ks, Forall2 (fun x k => (0 <= k)%Z /\ nth_error (z_edges h z) (Z.to_nat k) = Some x) xs ks ->
                  In k ks -> exists e, In e xs /\ (0 <= k)%Z /\ nth_error (z_edges h z) (Z.to_nat k) = Some e).
      { intros xs ks0 H. induction H as [|x k0 xs ks0 [H1 H2] _ IH]; intros Hin; [destruct Hin|].
        destruct Hin as [->|Hin]; [exists x; simpl; auto|]. destruct (IH Hin) as (e & He & H3). exists e. simpl; auto. }
      destruct (G L ks Hp Hk) as (e & He & H1 & H2). exists e. split; [auto|]. split; [auto|]. apply Hs. auto.
    - intros e He Hj. assert (HeL : In e L) by (apply Hs; auto). clear - Hp HeL.
      induction Hp as [|x k xs ks [H1 H2] _ IH]; [destruct HeL|].
      destruct HeL as [->|Hin]; [exists k; simpl; auto|]. destruct (IH Hin) as (k' & Hk' & H3). exists k'. simpl; auto.
  Qed.

  Lemma zones_faces_perm : forall h, grid_ok h ->
    Permutation (concat (map (z_faces h) (g_zones h))) (g_faces h).
  Proof.
    intros h [Ht Hz]. apply NoDup_Permutation.
    - assert (G : forall zs, NoDup zs -> incl zs (g_zones h) -> NoDup (concat (map (z_faces h) zs))).
      { induction zs as [|z zs IH]; intros Hnd Hi; cbn; [constructor|].
        apply NoDup_cons_iff in Hnd as [Hz1 Hnd]. apply NoDup_app_intro.
        - apply (zo_faces_nd h Hz). apply Hi. simpl; auto.
        - apply IH; auto. intros x Hx. apply Hi. simpl; auto.
        - intros f Hf Hf'. apply in_concat in Hf' as (l & Hl & Hfl). apply in_map_iff in Hl as (z' & <- & Hz').
          apply (zo_faces h Hz) in Hf as [_ E1]; [|apply Hi; simpl; auto].
          apply (zo_faces h Hz) in Hfl as [_ E2]; [|apply Hi; simpl; auto].
          congruence. }
      apply G; [apply (zo_nd h Hz)|apply incl_refl].
    - apply (t_faces_nd h Ht).
    - intros f. rewrite in_concat. split.
      + intros (l & Hl & Hf). apply in_map_iff in Hl as (z & <- & Hz'). apply (zo_faces h Hz z f Hz') in Hf. tauto.
      + intros Hf. destruct (zo_cover h Hz f Hf) as (z & Hz' & Ez). exists (z_faces h z).
        split; [apply in_map; auto|]. apply (zo_faces h Hz z f Hz'). auto.
  Qed.

  Lemma mpi_cover_main : forall h, grid_ok h -> zone_lists_ok h -> numbered h ->
    exists ms, store_mpi_files h = Ok ms /\ length ms = length (g_zones h) /\
      Permutation (concat (map mf_gloids ms)) (map Z.of_nat (seq 0 (length (g_faces h)))) /\
      forall i z m, nth_error (g_zones h) i = Some z -> nth_error ms i = Some m ->
        mf_title m = z_name h z /\ mf_mpi m = i /\
        mf_nodes m = length (z_nodes h z) /\ mf_edges m = length (z_edges h z) /\
        mf_faces m = length (z_faces h z) /\
        mf_coords m = map (fun c => map (fun n => coord c (n_p h n)) (z_nodes h z)) [0; 1; 2] /\
        mf_gloids m = map (f_glo h) (z_faces h z) /\
        mf_data m = map (fun e => map (fun f => face_get h f e) (z_faces h z)) mpi_vars /\
        position_rows (z_nodes h z) (f_nodes h) (z_faces h z) (mf_fn m) /\
        position_rows (z_edges h z) (f_edges h) (z_faces h z) (mf_fe m) /\
        position_rows (z_nodes h z) (e_nodes h) (z_edges h z) (mf_en m) /\
        mf_cross m = list_sum (map (fun b => length (snd b)) (mf_borders m)) /\
        mf_nborders m = length (mf_borders m).
  Proof.
    intros h Hok Hl Hn. destruct (store_mpi_ok h Hok Hl Hn) as (ms & Em & Lm & Hm).
    exists ms. split; [auto|]. split; [auto|]. split.
    - assert (E : concat (map mf_gloids ms) = map (f_glo h) (concat (map (z_faces h) (g_zones h)))).
      { rewrite concat_map, map_map. f_equal. apply nth_error_ext'. intros k. rewrite !nth_error_map.
        destruct (nth_error (g_zones h) k) as [z|] eqn:Ez.
        - destruct (nth_error ms k) as [m|] eqn:Emk.
          + cbn. f_equal. apply (Hm k z m Ez Emk).
          + exfalso. apply nth_error_None in Emk. assert (k < length (g_zones h)) by (apply nth_error_Some; congruence). lia.
        - rewrite (proj2 (nth_error_None _ _)); auto. apply nth_error_None in Ez. lia. }
      rewrite E. destruct Hn as (_ & _ & Hf). rewrite <- Hf. apply Permutation_map. apply zones_faces_perm. auto.
    - intros i z m Hi Hmi. pose proof (Hm i z m Hi Hmi) as H. unfold file_ok in H. tauto.
  Qed.

  Lemma position_rows_range : forall A B (l : list A) (row : B -> list A) bs kss,
    position_rows l row bs kss -> forall ks k, In ks kss -> In k ks -> (0 <= k < Z.of_nat (length l))%Z.
  Proof.
    intros A B l row bs kss H. induction H as [|b ks0 bs kss H0 _ IH]; intros ks k Hks Hk; [destruct Hks|].
    destruct Hks as [->|Hks]; [|eauto]. clear - H0 Hk.
    induction H0 as [|x k0 xs ks0 [H1 H2] _ IH]; [destruct Hk|]. destruct Hk as [->|Hk]; [|auto].
    assert (Z.to_nat k < length l) by (apply nth_error_Some; congruence). lia.
  Qed.
End MpiProofs.
