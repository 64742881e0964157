(** Proofs: storing a grid that was read from a stored file. *)

From Coq Require Import ZArith NArith Ascii String Bool Lia List Permutation.
From Verif Require Import Py PyLemmas Heap HeapLemmas GridModel GridSpec DecompProofs Mpi MpiSpec MpiProofs
  GridIO FileSpec TextLemmas StoreSpec StoreProofs LoadParse LoadPlace LoadEdges LoadMain RoundTrip.
Import ListNotations.
Open Scope list_scope.
Open Scope nat_scope.

(* ------------------------------------------------------------------ *)
(** * Lists *)

Section FirstsMore.
  Context {F : FloatOps}.

  Lemma firsts_from_ext : forall q s1 s2, (forall r, In r s1 <-> In r s2) -> firsts_from s1 q = firsts_from s2 q.
  Proof.
    induction q as [|x q IHq]; intros s1 s2 Hs; [reflexivity|]. cbn [firsts_from].
    destruct (in_dec rc_dec (rnd x) s1), (in_dec rc_dec (rnd x) s2);
      try (exfalso; specialize (Hs (rnd x)); tauto); auto.
    f_equal. apply IHq. intros r. cbn. specialize (Hs r). tauto.
  Qed.

  Lemma firsts_from_in : forall ps seen p, In p (firsts_from seen ps) -> In p ps /\ ~ In (rnd p) seen.
  Proof.
    induction ps as [|x ps IH]; intros seen p H; [destruct H|]. cbn [firsts_from] in H.
    destruct (in_dec rc_dec (rnd x) seen) as [K|K].
    - destruct (IH _ _ H). cbn. auto.
    - destruct H as [<-|H]; [cbn; auto|]. destruct (IH _ _ H) as [A B]. cbn in B |- *. tauto.
  Qed.

  (** Points seen before are passed over. *)
  Lemma firsts_from_seen : forall a seen b, (forall p, In p a -> In (rnd p) seen) -> firsts_from seen (a ++ b) = firsts_from seen b.
  Proof.
    induction a as [|x a IH]; intros seen b H; [reflexivity|]. cbn [app firsts_from].
    destruct (in_dec rc_dec (rnd x) seen) as [K|K]; [|exfalso; apply K, H; simpl; auto]. apply IH. intros; apply H; simpl; auto.
  Qed.

  Lemma firsts_from_again : forall ps seen, firsts_from seen (firsts_from seen ps) = firsts_from seen ps.
  Proof.
    induction ps as [|x ps IH]; intros seen; [reflexivity|]. cbn [firsts_from].
    destruct (in_dec rc_dec (rnd x) seen) as [K|K]; [apply IH|]. cbn [firsts_from].
    destruct (in_dec rc_dec (rnd x) seen); [contradiction|]. f_equal. apply IH.
  Qed.

  Lemma sublist_app_inv : forall A (p : A -> Prop) a b l, sublist_of p (a ++ b) l ->
    exists l1 l2, l = l1 ++ l2 /\ sublist_of p a l1 /\ sublist_of p b l2.
  Proof.
    induction a as [|x a IH]; intros b l H; [exists [], l; split; [reflexivity|split; [constructor|auto]]|].
    cbn [app] in H. inversion H as [|? ? l' Hp Hs|? ? ? Hp Hs]; subst.
    - destruct (IH _ _ Hs) as (l1 & l2 & -> & A1 & A2). exists (x :: l1), l2. split; [reflexivity|]. split; [apply sub_keep; auto|auto].
    - destruct (IH _ _ Hs) as (l1 & l2 & -> & A1 & A2). exists l1, l2. split; [reflexivity|]. split; [apply sub_drop; auto|auto].
  Qed.

  Lemma sublist_all : forall A (p : A -> Prop) l l', (forall x, In x l -> p x) -> sublist_of p l l' -> l' = l.
  Proof.
    intros A p l l' H S. induction S as [|x l l' Hp S IH|x l l' Hp S IH]; [reflexivity| |].
    - f_equal. apply IH. intros; apply H; simpl; auto.
    - exfalso. apply Hp, H. simpl. auto.
  Qed.

  Lemma sublist_none : forall A (p : A -> Prop) l l', (forall x, In x l -> ~ p x) -> sublist_of p l l' -> l' = [].
  Proof.
    intros A p l l' H S. induction S as [|x l l' Hp S IH|x l l' Hp S IH]; [reflexivity| |].
    - exfalso. apply (H x); [simpl; auto|auto].
    - apply IH. intros; apply H; simpl; auto.
  Qed.

  (** The first occurrences stay the same if every list is put into the order of the first occurrences. *)
  Lemma firsts_reordered : forall Ls Ls' seen FA, (forall p, In p FA -> In (rnd p) seen) ->
    Forall2 (fun L L' => sublist_of (fun p => In (rnd p) (map rnd L)) (FA ++ firsts_from seen (concat Ls)) L') Ls Ls' ->
    firsts_from seen (concat Ls') = firsts_from seen (concat Ls).
  Proof.
    induction Ls as [|L Ls IH]; intros Ls' seen FA HFA H; inversion H as [|? L' ? Ls2 HL HLs E1 E2]; subst; [reflexivity|].
    cbn [concat] in HL, HLs |- *. rewrite (firsts_from_app L) in HL, HLs |- *.
    set (seen' := rev (map rnd L) ++ seen) in *.
    destruct (sublist_app_inv _ _ _ _ _ HL) as (l1 & l2 & -> & S1 & S2).
    destruct (sublist_app_inv _ _ _ _ _ S2) as (l3 & l4 & -> & S3 & S4).
    assert (E3 : l3 = firsts_from seen L).
    { eapply sublist_all; [|exact S3]. intros x Hx. apply firsts_from_in in Hx as [Hx _]. apply in_map. auto. }
    assert (E4 : l4 = []).
    { eapply sublist_none; [|exact S4]. intros x Hx. apply firsts_from_in in Hx as [_ Hx]. intros K. apply Hx. unfold seen'.
      apply in_app_iff. left. rewrite <- in_rev. auto. }
    subst l3 l4. rewrite app_nil_r.
    assert (Hl1 : forall p, In p l1 -> In (rnd p) seen).
    { intros p Hp. apply HFA. apply (sublist_In _ _ _ _ p S1) in Hp. tauto. }
    rewrite <- app_assoc, firsts_from_seen by auto. rewrite firsts_from_app, firsts_from_again. f_equal.
    rewrite (firsts_from_ext _ (rev (map rnd (firsts_from seen L)) ++ seen) seen').
    - apply (IH Ls2 seen' (FA ++ firsts_from seen L)).
      + intros p Hp. unfold seen'. apply in_app_iff in Hp as [Hp|Hp]; apply in_app_iff; [right; auto|left].
        rewrite <- in_rev. apply in_map. apply firsts_from_in in Hp. tauto.
      + rewrite <- app_assoc. exact HLs.
    - intros r. unfold seen'. rewrite !in_app_iff, <- !in_rev. split; intros [K|K]; auto.
      + left. apply in_map_iff in K as (p & <- & K). apply in_map. apply firsts_from_in in K. tauto.
      + apply in_map_iff in K as (p & <- & K). clear - K. revert seen. induction L as [|x L IHL]; intros seen; [destruct K|].
        cbn [firsts_from]. destruct (in_dec rc_dec (rnd x) seen) as [J|J].
        * destruct K as [->|K]; [auto|]. auto.
        * cbn [map]. destruct K as [->|K]; [left; left; auto|]. destruct (IHL K (rnd x :: seen)) as [M|M]; [left; right; auto|].
          destruct M as [M|M]; [left; left; auto|auto].
  Qed.
End FirstsMore.

Lemma Forall2_of_nth : forall A B (R : A -> B -> Prop) l l', length l' = length l ->
  (forall i x y, nth_error l i = Some x -> nth_error l' i = Some y -> R x y) -> Forall2 R l l'.
Proof.
  induction l as [|x l IH]; intros [|y l'] L H; try discriminate L; constructor.
  - apply (H 0); reflexivity.
  - apply IH; [auto|]. intros i a b Ha Hb. apply (H (S i)); auto.
Qed.

(* ------------------------------------------------------------------ *)
(** * The text depends only on what is observed *)

Section Text.
  Context {F : FloatOps}.

  Definition zone_same (vars : list str) (h h' : heap) (z z' : nat) : Prop :=
    z_name h' z' = z_name h z /\ map (n_p h') (z_nodes h' z') = map (n_p h) (z_nodes h z) /\
    Forall2 (fun f f' => map (n_p h') (f_nodes h' f') = map (n_p h) (f_nodes h f) /\
      forall k, In k vars -> var_value h' f' k = var_value h f k) (z_faces h z) (z_faces h' z').

  Lemma positions_same : forall (p p' : nat -> pt) zn zn' xs xs' ks ks', map p' zn' = map p zn -> NoDup (map p zn) -> map p' xs' = map p xs ->
    positions zn xs ks -> positions zn' xs' ks' -> ks' = ks.
  Proof.
    intros p p' zn zn' xs xs' ks ks' E N. revert xs' ks ks'. induction xs as [|x xs IH]; intros [|x' xs'] ks ks' Ex P P'; try discriminate Ex.
    - inversion P; subst. inversion P'; subst. reflexivity.
    - cbn [map] in Ex. injection Ex as Ex1 Ex2. inversion P as [|? k ? ks1 [K1 K2] P1]; subst. inversion P' as [|? k' ? ks1' [K1' K2'] P1']; subst.
      rewrite (IH xs' ks1 ks1' Ex2 P1 P1'). f_equal.
      apply (map_nth_error p) in K2. apply (map_nth_error p') in K2'. rewrite E, Ex1 in K2'.
      assert (Z.to_nat k' = Z.to_nat k); [|lia].
      eapply NoDup_nth_error; [exact N| |congruence]. apply nth_error_Some. rewrite K2'. discriminate.
  Qed.

  Lemma conn_same : forall h h' vars t t' z z', NoDup (map (n_p h) (z_nodes h z)) -> zone_same vars h h' z z' ->
    (forall k x, nth_error (z_nodes h z) k = Some x -> py_get t (n_glo h x) = Ok (Z.of_nat k)) ->
    (forall k x, nth_error (z_nodes h' z') k = Some x -> py_get t' (n_glo h' x) = Ok (Z.of_nat k)) ->
    (forall f, In f (z_faces h z) -> incl (f_nodes h f) (z_nodes h z)) ->
    (forall f, In f (z_faces h' z') -> incl (f_nodes h' f) (z_nodes h' z')) ->
    exists ls, rmap (conn_str h t) (z_faces h z) = Ok ls /\ rmap (conn_str h' t') (z_faces h' z') = Ok ls.
  Proof.
    intros h h' vars t t' z z' N (_ & Ep & Hf) Ht Ht' Hi Hi'.
    induction Hf as [|f f' fs fs' [Ef _] Hf IH]; [exists []; auto|].
    destruct IH as (ls & E1 & E2); [intros; apply Hi; simpl; auto|intros; apply Hi'; simpl; auto|].
    destruct (local_ids_ok _ _ _ Ht (f_nodes h f)) as (ks & Ek & Pk); [apply Hi; simpl; auto|].
    destruct (local_ids_ok _ _ _ Ht' (f_nodes h' f')) as (ks' & Ek' & Pk'); [apply Hi'; simpl; auto|].
    assert (ks' = ks) by (exact (positions_same (n_p h) (n_p h') _ _ _ _ _ _ Ep N Ef Pk Pk')). subst ks'.
    cbn [rmap]. unfold conn_str at 1 3. rewrite Ek, Ek'. cbn [rbind]. rewrite E1, E2. cbn [rbind]. eexists. split; reflexivity.
  Qed.

  Lemma slices_same : forall h h' vars z z', zone_same vars h h' z z' ->
    (forall i, nodes_coord_slice h' z' i = nodes_coord_slice h z i) /\
    (forall k, In k vars -> faces_data_slice h' z' k = faces_data_slice h z k).
  Proof.
    intros h h' vars z z' (_ & Ep & Hf). split.
    - intros i. unfold nodes_coord_slice. rewrite <- (map_map (n_p h') (fun p => coord i p)), <- (map_map (n_p h) (fun p => coord i p)). rewrite Ep. reflexivity.
    - intros k Hk. unfold faces_data_slice. induction Hf as [|f f' fs fs' [_ Hv] Hf IH]; [reflexivity|]. cbn [map].
      rewrite !var_value_get. rewrite (Hv k Hk). f_equal. exact IH.
  Qed.

  Lemma store_zone_same : forall h h' vars nv t t' z z', NoDup (map (n_p h) (z_nodes h z)) -> zone_same vars h h' z z' ->
    glo_ok (n_glo h) (length t) (z_nodes h z) -> glo_ok (n_glo h') (length t') (z_nodes h' z') ->
    (forall f, In f (z_faces h z) -> incl (f_nodes h f) (z_nodes h z)) ->
    (forall f, In f (z_faces h' z') -> incl (f_nodes h' f) (z_nodes h' z')) ->
    exists s u u', store_zone h vars nv t z = Ok (s, u) /\ store_zone h' vars nv t' z' = Ok (s, u') /\ length u = length t /\ length u' = length t'.
  Proof.
    intros h h' vars nv t t' z z' N H G G' Hi Hi'. unfold store_zone.
    destruct (locate_ok _ _ _ 0 G) as (u & Eu & Lu & Hu & _). destruct (locate_ok _ _ _ 0 G') as (u' & Eu' & Lu' & Hu' & _).
    rewrite Eu, Eu'. cbn [rbind].
    destruct (conn_same h h' vars u u' z z' N H Hu Hu' Hi Hi') as (ls & E1 & E2). rewrite E1, E2. cbn [rbind].
    destruct (slices_same h h' vars z z' H) as [C D]. destruct H as (En & Ep & Hf).
    assert (Ln : length (z_nodes h' z') = length (z_nodes h z)) by (apply (f_equal (@length _)) in Ep; rewrite !map_length in Ep; exact Ep).
    assert (Lf : length (z_faces h' z') = length (z_faces h z)) by (symmetry; eapply Forall2_len; exact Hf).
    do 3 eexists. split; [reflexivity|]. split; [|split; [exact Lu|exact Lu']]. rewrite En, Ln, Lf.
    cbn [map]. rewrite !C.
    rewrite (map_ext_in (fun e => vals_str (faces_data_slice h' z' e) ++ [sp; nl]) (fun e => vals_str (faces_data_slice h z e) ++ [sp; nl])); [reflexivity|].
    intros k Hk. rewrite (D k Hk). reflexivity.
  Qed.

  Lemma store_zones_same : forall h h' vars nv zs zs', Forall2 (zone_same vars h h') zs zs' -> forall t t',
    (forall z, In z zs -> NoDup (map (n_p h) (z_nodes h z)) /\ glo_ok (n_glo h) (length t) (z_nodes h z) /\
       forall f, In f (z_faces h z) -> incl (f_nodes h f) (z_nodes h z)) ->
    (forall z, In z zs' -> glo_ok (n_glo h') (length t') (z_nodes h' z) /\
       forall f, In f (z_faces h' z) -> incl (f_nodes h' f) (z_nodes h' z)) ->
    exists s, store_zones h vars nv t zs = Ok s /\ store_zones h' vars nv t' zs' = Ok s.
  Proof.
    intros h h' vars nv zs zs' H. induction H as [|z z' zs zs' Hz H IH]; intros t t' A B; [exists []; auto|].
    destruct (A z) as (A1 & A2 & A3); [simpl; auto|]. destruct (B z') as (B1 & B2); [simpl; auto|].
    destruct (store_zone_same h h' vars nv t t' z z' A1 Hz A2 B1 A3 B2) as (s & u & u' & E1 & E2 & L1 & L2).
    destruct (IH u u') as (s2 & E3 & E4).
    - intros y Hy. rewrite L1. apply A. simpl. auto.
    - intros y Hy. rewrite L2. apply B. simpl. auto.
    - exists (s ++ s2). cbn [store_zones]. rewrite E1, E2. cbn [rbind fst snd]. rewrite E3, E4. auto.
  Qed.

  Lemma store_same : forall h h', grid_ok h -> zone_lists_ok h -> numbered h -> nodes_merged h ->
    grid_ok h' -> zone_lists_ok h' -> numbered h' -> g_faces h <> [] -> g_faces h' <> [] ->
    g_name h' = g_name h -> grid_vars h' = grid_vars h -> Forall2 (zone_same (grid_vars h) h h') (g_zones h) (g_zones h') ->
    store h' = store h.
  Proof.
    intros h h' Hok Hl Hnb Hm Hok' Hl' Hnb' Hf Hf' En Ev Hz.
    assert (A : forall z, In z (g_zones h) -> NoDup (map (n_p h) (z_nodes h z)) /\ glo_ok (n_glo h) (length (minus_ones (length (g_nodes h)))) (z_nodes h z) /\
       forall f, In f (z_faces h z) -> incl (f_nodes h f) (z_nodes h z)).
    { intros z Hzi. destruct (Hl z Hzi) as [Hs _]. destruct Hm as (M1 & _ & M3). split; [|split].
      - assert (K : NoDup (map rnd (map (n_p h) (z_nodes h z)))).
        { rewrite map_map. rewrite (map_ext_in (fun x => rnd (n_p h x)) (n_rc h)).
          - clear - Hs M1. induction Hs as [|x l l' Hp Hs IH|x l l' Hp Hs IH]; [constructor| |]; cbn [map] in *; inversion M1; subst; auto.
            constructor; [|auto]. intros K. apply in_map_iff in K as (y & Ey & Hy). apply H1. rewrite <- Ey. apply in_map.
            apply (sublist_In _ _ _ _ y Hs) in Hy. tauto.
          - intros n Hn. symmetry. apply M3. apply (sublist_In _ _ _ _ n Hs) in Hn. tauto. }
        eapply NoDup_map_inv. exact K.
      - unfold minus_ones. rewrite repeat_length. destruct Hnb as [Hn _]. eapply glo_ok_perm; eauto.
      - intros f Hfz. apply (zone_face_incl h z f Hok Hl Hzi Hfz). }
    assert (B : forall z, In z (g_zones h') -> glo_ok (n_glo h') (length (minus_ones (length (g_nodes h')))) (z_nodes h' z) /\
       forall f, In f (z_faces h' z) -> incl (f_nodes h' f) (z_nodes h' z)).
    { intros z Hzi. destruct (Hl' z Hzi) as [Hs _]. split.
      - unfold minus_ones. rewrite repeat_length. destruct Hnb' as [Hn _]. eapply glo_ok_perm; eauto.
      - intros f Hfz. apply (zone_face_incl h' z f Hok' Hl' Hzi Hfz). }
    unfold grid_vars in *. unfold store.
    destruct (g_faces h) as [|f0 fs]; [congruence|]. destruct (g_faces h') as [|f0' fs']; [congruence|].
    change (py_get (f0 :: fs) 0) with (Ok f0). change (py_get (f0' :: fs') 0) with (Ok f0'). cbn [rbind]. rewrite Ev, En.
    destruct (store_zones_same h h' (keys (f_data h f0)) (length (map lit ["X"; "Y"; "Z"]%string ++ keys (f_data h f0))) _ _ Hz _ _ A B) as (s & E1 & E2).
    rewrite E1, E2. reflexivity.
  Qed.
End Text.
