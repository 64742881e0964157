(** Proofs about the collection of ice heights. *)

From Coq Require Import ZArith NArith Ascii String Bool Lia Arith List.
From Verif Require Import Py PyLemmas Heap GridModel GridSpec ZamProofs MpiProofs Exchange ExchangeProofs Gather.
Import ListNotations.
Open Scope list_scope.
Open Scope nat_scope.

Lemma nth_error_firstn' : forall A (l : list A) k j, nth_error (firstn k l) j = if j <? k then nth_error l j else None.
Proof.
  induction l as [|x l IH]; intros k j.
  - rewrite firstn_nil. destruct j; destruct (_ <? _); auto.
  - destruct k as [|k]; [destruct j; auto|]. destruct j as [|j]; [auto|]. cbn [firstn nth_error]. rewrite IH. auto.
Qed.

Lemma nth_error_skipn' : forall A (l : list A) k j, nth_error (skipn k l) j = nth_error l (k + j).
Proof. induction l as [|x l IH]; intros [|k] j; cbn; auto. destruct j; auto. Qed.

Lemma slice_nth : forall A (l : list A) a b j, a <= b ->
  nth_error (py_slice l (Z.of_nat a) (Z.of_nat b)) j = if j <? b - a then nth_error l (a + j) else None.
Proof.
  intros A l a b j Hab. unfold py_slice. rewrite !py_bound_pos, !Nat2Z.id by lia.
  rewrite nth_error_firstn', nth_error_skipn'.
  destruct (Nat.ltb_spec j (b - a)) as [H|H].
  - destruct (le_lt_dec (length l) (a + j)) as [Hl|Hl].
    + rewrite (proj2 (nth_error_None l (a + j)) Hl). destruct (Nat.ltb_spec j (Nat.min b (length l) - Nat.min a (length l))); [lia|auto].
    + destruct (Nat.ltb_spec j (Nat.min b (length l) - Nat.min a (length l))); [|lia]. f_equal. lia.
  - destruct (Nat.ltb_spec j (Nat.min b (length l) - Nat.min a (length l))); [lia|auto].
Qed.

Section GatherProofs.
  Context {F : FloatOps}.

  Lemma write_other : forall fs vs d f, ~ In f fs -> write_his fs vs d f = d f.
  Proof.
    induction fs as [|g fs IH]; intros [|v vs] d f H; cbn [write_his]; auto. cbn in H. rewrite IH by tauto.
    unfold data_set. apply upd_neq. intros ->. tauto.
  Qed.

  Lemma write_names : forall fs vs d f k, k <> hi_name -> dget str_dec (write_his fs vs d f) k = dget str_dec (d f) k.
  Proof.
    induction fs as [|g fs IH]; intros [|v vs] d f k H; cbn [write_his]; auto. rewrite IH by auto. unfold data_set.
    destruct (Nat.eq_dec f g) as [->|]; [rewrite upd_eq, dget_dset; destruct (str_dec k hi_name); [congruence|auto]|].
    rewrite upd_neq by auto. auto.
  Qed.

  Lemma write_nth : forall fs vs d j f, NoDup fs -> nth_error fs j = Some f ->
    dget str_dec (write_his fs vs d f) hi_name =
      match nth_error vs j with Some v => Some v | None => dget str_dec (d f) hi_name end.
  Proof.
    induction fs as [|g fs IH]; intros vs d j f Hnd Hj; [destruct j; discriminate|].
    apply NoDup_cons_iff in Hnd as [Hg Hnd]. destruct vs as [|v vs]; [destruct j; auto|].
    cbn [write_his]. destruct j as [|j]; cbn in Hj.
    - inv Hj. rewrite write_other by auto. unfold data_set. rewrite upd_eq, dget_dset.
      destruct (str_dec hi_name hi_name); [auto|congruence].
    - cbn [nth_error]. rewrite (IH vs _ j f Hnd Hj). destruct (nth_error vs j); [auto|].
      unfold data_set. rewrite upd_neq; [auto|]. intros ->. apply Hg. eapply nth_error_In; eauto.
  Qed.

  Variable h : heap.
  Hypothesis Hok : grid_ok h.

  Lemma zone_faces_sep : forall z y f, In z (g_zones h) -> In y (g_zones h) ->
    In f (z_faces h z) -> In f (z_faces h y) -> z = y.
  Proof.
    intros z y f Hz Hy Hf Hf'. destruct Hok as [_ Hzo].
    apply (zo_faces h Hzo z f Hz) in Hf as [_ E]. apply (zo_faces h Hzo y f Hy) in Hf' as [_ E']. congruence.
  Qed.

  Lemma spread_ok : forall counts buf zs i d, length counts = length (g_zones h) ->
    skipn i (g_zones h) = zs ->
    exists d', spread h i zs counts buf d = Ok d' /\
      (forall f k, k <> hi_name -> dget str_dec (d' f) k = dget str_dec (d f) k) /\
      (forall f, (forall z, In z zs -> ~ In f (z_faces h z)) -> d' f = d f) /\
      (forall m z j f c, i <= m -> nth_error (g_zones h) m = Some z -> nth_error (z_faces h z) j = Some f ->
         nth_error counts m = Some c ->
         dget str_dec (d' f) hi_name =
           match (if j <? c then nth_error buf (m * c + j) else None) with
           | Some v => Some v | None => dget str_dec (d f) hi_name end).
  Proof.
    intros counts buf. induction zs as [|z zs IH]; intros i d Hc Hs; cbn [spread].
    - exists d. split; [auto|]. split; [auto|]. split; [auto|]. intros m z j f c Hm Hz. exfalso.
      assert (m < length (g_zones h)) by (apply nth_error_Some; congruence).
      assert (E : length (skipn i (g_zones h)) = 0) by (rewrite Hs; auto). rewrite skipn_length in E. lia.
    - assert (Hz : nth_error (g_zones h) i = Some z).
      { assert (E : nth_error (skipn i (g_zones h)) 0 = Some z) by (rewrite Hs; auto).
        rewrite nth_error_skipn', Nat.add_0_r in E. auto. }
      assert (Hlt : i < length counts) by (rewrite Hc; apply nth_error_Some; congruence).
      destruct (nth_error counts i) as [ci|] eqn:Eci; [|apply nth_error_None in Eci; lia].
      rewrite (py_get_nat _ _ _ ci Eci). cbn [rbind].
      set (d1 := write_his (z_faces h z) _ d).
      assert (Hs' : skipn (S i) (g_zones h) = zs).
      { rewrite (skipn_nth _ _ _ _ Hz) in Hs. congruence. }
      destruct (IH (S i) d1 Hc Hs') as (d' & E & U1 & U2 & U3).
      exists d'. split; [auto|].
      assert (Hzin : In z (g_zones h)) by (eapply nth_error_In; eauto).
      pose proof Hok as [_ Hzo].
      split; [|split].
      + intros f k Hk. rewrite U1 by auto. apply write_names. auto.
      + intros f Hf. rewrite U2 by (intros; apply Hf; simpl; auto). apply write_other. apply Hf. simpl; auto.
      + intros m y j f c Hm Hy Hj Hcm. destruct (Nat.eq_dec m i) as [->|Hne].
        * assert (y = z) by congruence. assert (c = ci) by congruence. subst y c.
          rewrite U2.
          -- unfold d1. rewrite (write_nth _ _ _ j f (zo_faces_nd h Hzo z Hzin) Hj).
             rewrite slice_nth by lia. replace (S i * ci - i * ci) with ci by lia. auto.
          -- intros y Hyz Hfy. rewrite <- Hs' in Hyz. apply In_nth_error in Hyz as (n & Hn).
             rewrite nth_error_skipn' in Hn.
             assert (y = z) by (eapply zone_faces_sep; eauto; eapply nth_error_In; eauto). subst y.
             assert (S i + n = i); [|lia].
             apply (proj1 (NoDup_nth_error (g_zones h)) (zo_nd h Hzo)); [apply nth_error_Some; congruence|congruence].
        * rewrite (U3 m y j f c) by (auto; lia).
          assert (Ed : d1 f = d f); [|rewrite Ed; auto].
          apply write_other. intros Hfz.
          assert (y = z) by (eapply zone_faces_sep; eauto; eapply nth_error_In; eauto). subst y.
          apply Hne. apply (proj1 (NoDup_nth_error (g_zones h)) (zo_nd h Hzo)); [apply nth_error_Some; congruence|congruence].
  Qed.

  Variables (his : list (list val)) (d : fdata).
  Hypothesis Hm : Forall2 (fun z l => length l = length (z_faces h z)) (g_zones h) his.

  Lemma gather_ok : exists d', gather_his h his d = Ok d' /\
      (forall f k, k <> lit "Hi" -> dget str_dec (d' f) k = dget str_dec (d f) k) /\
      (forall f, ~ In f (g_faces h) -> d' f = d f) /\
      (forall i z j f, nth_error (g_zones h) i = Some z -> nth_error (z_faces h z) j = Some f ->
         dget str_dec (d' f) (lit "Hi") =
           match nth_error (concat his) (i * length (z_faces h z) + j) with
           | Some v => Some v | None => dget str_dec (d f) (lit "Hi") end).
  Proof.
    destruct (spread_ok (map (@length val) his) (concat his) (g_zones h) 0 d) as (d' & E & U1 & U2 & U3).
    - rewrite map_length. symmetry. eapply Forall2_len; eauto.
    - auto.
    - exists d'. split; [auto|]. split; [auto|]. split.
      + intros f Hf. apply U2. intros z Hz Hfz. apply Hf. destruct Hok as [_ Hzo].
        apply (proj1 (zo_faces h Hzo z f Hz)) in Hfz. apply Hfz.
      + intros i z j f Hz Hj.
        assert (Hlt : i < length his).
        { rewrite <- (Forall2_len _ _ _ _ _ Hm). apply nth_error_Some. congruence. }
        destruct (nth_error his i) as [l|] eqn:El; [|apply nth_error_None in El; lia].
        destruct (Forall2_nth _ _ _ _ _ _ _ Hm El) as (z' & Hz' & Hl). assert (z' = z) by congruence. subst z'.
        change (lit "Hi") with hi_name. rewrite (U3 i z j f (length l)); auto; [|lia|rewrite nth_error_map, El; auto].
        assert (j < length (z_faces h z)) by (apply nth_error_Some; congruence).
        rewrite Hl. destruct (Nat.ltb_spec j (length (z_faces h z))); [auto|lia].
  Qed.

  Lemma concat_nth : forall A (ls : list (list A)) i l j, nth_error ls i = Some l -> j < length l ->
    nth_error (concat ls) (list_sum (map (@length A) (firstn i ls)) + j) = nth_error l j.
  Proof.
    induction ls as [|a ls IH]; intros [|i] l j Hi Hj; try discriminate; cbn in Hi.
    - inv Hi. cbn. rewrite nth_error_app1; auto.
    - cbn [firstn map concat]. rewrite lsum_cons, nth_error_app2 by lia.
      rewrite <- (IH i l j Hi Hj). f_equal. lia.
  Qed.

  Lemma gather_good : exists d', gather_his h his d = Ok d' /\
      (forall i z l j f, nth_error (g_zones h) i = Some z -> nth_error his i = Some l ->
         nth_error (z_faces h z) j = Some f ->
         list_sum (map (fun y => length (z_faces h y)) (firstn i (g_zones h))) = i * length (z_faces h z) ->
         dget str_dec (d' f) (lit "Hi") = nth_error l j) /\
      (forall f k, k <> lit "Hi" -> dget str_dec (d' f) k = dget str_dec (d f) k) /\
      (forall f, ~ In f (g_faces h) -> d' f = d f).
  Proof.
    destruct gather_ok as (d' & E & U1 & U2 & U3). exists d'. split; [auto|]. split; [|auto].
    intros i z l j f Hz Hl Hj Hs. rewrite (U3 i z j f Hz Hj).
    assert (Hjl : j < length (z_faces h z)) by (apply nth_error_Some; congruence).
    destruct (Forall2_nth _ _ _ _ _ _ _ Hm Hl) as (z' & Hz' & Hlen). assert (z' = z) by congruence. subst z'.
    rewrite <- Hs.
    assert (E2 : map (fun y => length (z_faces h y)) (firstn i (g_zones h)) = map (@length val) (firstn i his)).
    { clear - Hm. revert i. induction Hm as [|y l0 zs ls H0 H1 IH]; intros [|i]; cbn [firstn map]; auto. rewrite H0, (IH H1 i). auto. }
    rewrite E2, (concat_nth _ his i l j Hl) by lia.
    destruct (nth_error l j) eqn:En; [auto|]. apply nth_error_None in En. lia.
  Qed.
End GatherProofs.
