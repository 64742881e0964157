(** Proofs about the exchange between neighbour zones. *)

From Coq Require Import ZArith NArith Ascii String Bool Lia Arith List Permutation.
From Verif Require Import Py PyLemmas Heap GridModel GridSpec DecompProofs Zam ZamSpec ZamProofs
  Mpi MpiSpec MpiProofs Exchange ExchangeSpec.
Import ListNotations.
Open Scope list_scope.
Open Scope nat_scope.

Lemma upd_eq : forall A (m : nat -> A) k v, upd m k v k = v.
Proof. intros. unfold upd. rewrite Nat.eqb_refl. auto. Qed.
Lemma upd_neq : forall A (m : nat -> A) k v j, j <> k -> upd m k v j = m j.
Proof. intros. unfold upd. destruct (Nat.eqb_spec j k); [congruence|auto]. Qed.
Lemma upd2_eq : forall A (m : nat -> nat -> A) i j v, upd2 m i j v i j = v.
Proof. intros. unfold upd2. rewrite !upd_eq. auto. Qed.
Lemma upd2_neq : forall A (m : nat -> nat -> A) i j v x y, x <> i \/ y <> j -> upd2 m i j v x y = m x y.
Proof.
  intros. unfold upd2. destruct (Nat.eq_dec x i) as [->|].
  - rewrite upd_eq. apply upd_neq. tauto.
  - rewrite upd_neq; auto.
Qed.

(** Requests posted by one loop. *)
Lemma post_other : forall bs q i k, ~ In k (map fst bs) -> post q i bs k = q k.
Proof.
  induction bs as [|[k0 ids] bs IH]; intros q i k Hn; cbn [post]; auto.
  cbn in Hn. rewrite IH by tauto. apply upd_neq. intros ->. tauto.
Qed.

Lemma post_one : forall bs q i n k ids, NoDup (map fst bs) -> nth_error bs n = Some (k, ids) ->
  post q i bs k = q k ++ [(i + n, length ids)].
Proof.
  induction bs as [|[k0 ids0] bs IH]; intros q i n k ids Hnd Hn; [destruct n; discriminate|].
  cbn in Hnd. apply NoDup_cons_iff in Hnd as [Hk Hnd]. destruct n as [|n]; cbn in Hn; cbn [post].
  - inv Hn. rewrite post_other by auto. rewrite upd_eq, Nat.add_0_r. auto.
  - rewrite (IH _ _ n k ids) by auto. rewrite upd_neq.
    + do 3 f_equal. lia.
    + intros ->. apply Hk. change k0 with (fst (k0, ids)). apply in_map. eapply nth_error_In; eauto.
Qed.

Lemma Forall2_nth : forall A B (R : A -> B -> Prop) l l' n y, Forall2 R l l' -> nth_error l' n = Some y ->
  exists x, nth_error l n = Some x /\ R x y.
Proof.
  intros A B R l l' n y H. revert n. induction H; intros [|n] Hn; cbn in *; try discriminate.
  - inv Hn. eauto.
  - auto.
Qed.

Section ExchangeProofs.
  Context {F : FloatOps}.
  Variable h : heap.
  Variable bs : nat -> list (nat * list Z).
  Variable names : list str.
  Variable d : nat -> fdata.
  Hypothesis Hready : ready h.
  Hypothesis Hbs : borders_of h bs.

  Let N := length (g_zones h).
  Definition zn (r : nat) : nat := nth r (g_zones h) 0.

  Lemma zn_nth : forall r, r < N -> nth_error (g_zones h) r = Some (zn r).
  Proof. intros r H. apply nth_error_nth'. auto. Qed.

  Lemma zn_inj : forall r s, r < N -> s < N -> zn r = zn s -> r = s.
  Proof.
    intros r s Hr Hs E. destruct Hready as [[_ Hz] _].
    apply (proj1 (NoDup_nth_error (g_zones h)) (zo_nd h Hz)); auto. rewrite !zn_nth by auto. congruence.
  Qed.

  (** Own and ghost face of a cross edge. *)
  Definition own (z e : nat) : nat :=
    match e_faces h e with [f; g] => if ozone_eqb (f_zone h f) (Some z) then f else g | _ => 0 end.
  Definition gho (z e : nat) : nat :=
    match e_faces h e with [f; g] => if ozone_eqb (f_zone h f) (Some z) then g else f | _ => 0 end.

  Lemma ozone_eqb_true : forall o z, ozone_eqb o (Some z) = true <-> o = Some z.
  Proof. intros [x|] z; cbn; [rewrite Nat.eqb_eq|]; split; congruence. Qed.

  Lemma own_gho : forall z y e, joins h z y e -> z <> y ->
    f_zone h (own z e) = Some z /\ f_zone h (gho z e) = Some y /\ gho z e = own y e /\
    (e_faces h e = [own z e; gho z e] \/ e_faces h e = [gho z e; own z e]).
  Proof.
    intros z y e (f & g & E & Ef & Eg) Hne. unfold own, gho.
    assert (Hn : ozone_eqb (Some z) (Some y) = false) by (cbn; apply Nat.eqb_neq; auto).
    assert (Hn' : ozone_eqb (Some y) (Some z) = false) by (cbn; apply Nat.eqb_neq; auto).
    assert (Hp : forall x, ozone_eqb (Some x) (Some x) = true) by (intros; cbn; apply Nat.eqb_refl).
    destruct E as [E|E]; rewrite E, ?Ef, ?Eg, ?Hn, ?Hn', ?Hp; auto.
  Qed.

  Definition L (r s : nat) : list nat := filter (fun e => is_connect_zones h e (zn r) (zn s)) (g_edges h).

  Lemma L_sublist : forall r s, sublist_of (joins h (zn r) (zn s)) (g_edges h) (L r s).
  Proof. intros. apply sublist_filter. intros. apply is_connect_joins. Qed.

  Lemma L_In : forall r s e, In e (L r s) <-> In e (g_edges h) /\ joins h (zn r) (zn s) e.
  Proof. intros. apply (sublist_In _ _ _ _ e (L_sublist r s)). Qed.

  Lemma L_sym : forall r s, L r s = L s r.
  Proof.
    intros. unfold L. apply filter_ext. intros e. apply eq_true_iff_eq. rewrite !is_connect_joins.
    split; apply joins_sym.
  Qed.

  Definition nbr (r s : nat) : Prop := r < N /\ s < N /\ r <> s /\ L r s <> [].

  Lemma nbr_sym : forall r s, nbr r s -> nbr s r.
  Proof. unfold nbr. intros r s (H1 & H2 & H3 & H4). rewrite L_sym. auto. Qed.

  Lemma nbr_dec : forall r s, {nbr r s} + {~ nbr r s}.
  Proof.
    intros r s. unfold nbr. destruct (lt_dec r N); [|right; tauto]. destruct (lt_dec s N); [|right; tauto].
    destruct (Nat.eq_dec r s); [right; tauto|]. destruct (L r s) eqn:E; [right; tauto|]. left.
    split; [auto|]. split; [auto|]. split; [auto|discriminate].
  Qed.

  Lemma bs_ok : forall r, r < N -> borders_ok h r (zn r) (bs r).
  Proof.
    intros r Hr. destruct Hready as (H1 & H2 & H3 & H4). destruct Hbs as (a & Ha & Hb).
    destruct (get_mpi_borders_ok h a r (zn r) H1 H2 H4 Ha (zn_nth r Hr)) as (b & Eb & Hok).
    rewrite (Hb r (zn r) (zn_nth r Hr)) in Eb. inv Eb. auto.
  Qed.

  Definition ix (r s : nat) : nat :=
    match index_of (fun p => fst p =? s) (bs r) with Some i => i | None => 0 end.
  Definition c (r s : nat) : nat := length (L r s).

  Lemma c_sym : forall r s, c r s = c s r.
  Proof. intros. unfold c. rewrite L_sym. auto. Qed.

  Lemma bs_entry : forall r i s ids, r < N -> nth_error (bs r) i = Some (s, ids) ->
    nbr r s /\ positions (z_edges h (zn r)) (L r s) ids /\ i = ix r s /\ length ids = c r s.
  Proof.
    intros r i s ids Hr Hi. destruct (bs_ok r Hr) as [Hnd Hin].
    destruct (proj1 (Hin s ids) (nth_error_In _ _ Hi)) as (y & L' & Hy & Hne & HL & Hn0 & Hp).
    assert (Hs : s < N) by (apply nth_error_Some; congruence).
    assert (y = zn s) by (rewrite zn_nth in Hy by auto; congruence). subst y.
    rewrite <- (sublist_unique _ _ _ _ _ (L_sublist r s) HL) in *.
    split; [repeat split; auto|]. split; [auto|]. split.
    - unfold ix. destruct (index_of (fun p => fst p =? s) (bs r)) as [j|] eqn:E.
      + apply index_of_Some in E as ([s' ids'] & Hj & Es). cbn in Es. apply Nat.eqb_eq in Es. subst s'.
        apply (proj1 (NoDup_nth_error (map fst (bs r))) Hnd).
        * rewrite map_length. apply nth_error_Some. congruence.
        * rewrite !nth_error_map, Hi, Hj. auto.
      + apply index_of_None in E. exfalso. apply not_true_iff_false in E. apply E.
        apply existsb_exists. exists (s, ids). split; [eapply nth_error_In; eauto|]. cbn. apply Nat.eqb_refl.
    - unfold c. symmetry. eapply Forall2_len; eauto.
  Qed.

  Lemma bs_find : forall r s, nbr r s -> exists ids, nth_error (bs r) (ix r s) = Some (s, ids) /\
    positions (z_edges h (zn r)) (L r s) ids /\ length ids = c r s.
  Proof.
    intros r s (Hr & Hs & Hne & HL).
    destruct (bs_ok r Hr) as [Hnd Hin].
    assert (P : forall xs, incl xs (z_edges h (zn r)) -> exists ks, positions (z_edges h (zn r)) xs ks).
    { induction xs as [|x xs IH]; intros Hx; [exists []; constructor|].
      destruct IH as (ks & Hk); [intros e He; apply Hx; simpl; auto|].
      destruct (In_nth_error (z_edges h (zn r)) x) as (k & Hkx); [apply Hx; simpl; auto|].
      exists (Z.of_nat k :: ks). constructor; auto. split; [lia|]. rewrite Nat2Z.id. auto. }
    destruct (P (L r s)) as (ids & Hp).
    { intros e He. apply L_In in He as [He Hj]. destruct Hready as (_ & Hl & _).
      destruct (Hl (zn r)) as [_ Hse]; [eapply nth_error_In; apply zn_nth; auto|].
      apply (sublist_In _ _ _ _ e Hse). split; [auto|]. eapply joins_in; eauto. }
    assert (Hi : In (s, ids) (bs r)).
    { apply Hin. exists (zn s), (L r s). split; [apply zn_nth; auto|]. split; [auto|].
      split; [apply L_sublist|]. auto. }
    apply In_nth_error in Hi as (i & Hi). destruct (bs_entry r i s ids Hr Hi) as (_ & _ & -> & Hl).
    exists ids. auto.
  Qed.

  Lemma post_nbr : forall r s q, nbr r s -> post q 0 (bs r) s = q s ++ [(ix r s, c r s)].
  Proof.
    intros r s q H. destruct (bs_find r s H) as (ids & Hi & _ & Hl). destruct H as (Hr & _).
    rewrite (post_one (bs r) q 0 (ix r s) s ids) by (auto; apply bs_ok; auto). rewrite Hl. auto.
  Qed.

  Lemma post_not : forall r s q, r < N -> ~ nbr r s -> post q 0 (bs r) s = q s.
  Proof.
    intros r s q Hr H. apply post_other. intros Hin. apply H. apply in_map_iff in Hin as ([s' ids] & Es & Hin).
    cbn in Es. subst s'. apply In_nth_error in Hin as (i & Hi). apply (bs_entry r i s ids Hr Hi).
  Qed.

  (* ---------------------------------------------------------------- *)
  (** * Faces of cross edges *)

  Lemma attr_own : forall z f, In z (g_zones h) -> In f (g_faces h) ->
    attr_is (zone_attr h z f) (z_id h z) = ozone_eqb (f_zone h f) (Some z).
  Proof.
    intros z f Hz Hf. unfold zone_attr. destruct Hready as [[_ Hzo] _].
    destruct (existsb (Nat.eqb f) (z_faces h z)) eqn:E.
    - cbn. rewrite Z.eqb_refl. symmetry. apply ozone_eqb_true. apply existsb_exists in E as (g & Hg & E).
      apply Nat.eqb_eq in E. subst g. apply (zo_faces h Hzo z f Hz). auto.
    - cbn. symmetry. apply not_true_iff_false. intros Ez. apply ozone_eqb_true in Ez.
      apply not_true_iff_false in E. apply E. apply existsb_exists. exists f. split; [|apply Nat.eqb_refl].
      apply (zo_faces h Hzo z f Hz). auto.
  Qed.

  Lemma real_ghost : forall r s e k, nbr r s -> In e (L r s) -> (0 <= k)%Z ->
    nth_error (z_edges h (zn r)) (Z.to_nat k) = Some e ->
    get_real_face h (zn r) k = Ok (own (zn r) e) /\ get_ghost_face h (zn r) k = Ok (gho (zn r) e).
  Proof.
    intros r s e k (Hr & Hs & Hne & _) He Hk Hn. apply L_In in He as [He Hj].
    assert (Hz : In (zn r) (g_zones h)) by (eapply nth_error_In; apply zn_nth; auto).
    assert (Hzz : zn r <> zn s) by (intros E; apply Hne; apply zn_inj; auto).
    destruct (own_gho _ _ _ Hj Hzz) as (Eo & Eg & _ & Ef).
    destruct Hready as [[Ht _] _].
    destruct (t_edge_faces h Ht e He) as (_ & _ & Hi).
    unfold get_real_face, get_ghost_face. rewrite <- (Z2Nat.id k) by auto. rewrite (py_get_nat _ _ _ e Hn).
    cbn [rbind].
    assert (Ho : attr_is (zone_attr h (zn r) (own (zn r) e)) (z_id h (zn r)) = true).
    { rewrite attr_own; [apply ozone_eqb_true; auto|auto|]. apply Hi. destruct Ef as [->| ->]; simpl; auto. }
    assert (Hg : attr_is (zone_attr h (zn r) (gho (zn r) e)) (z_id h (zn r)) = false).
    { rewrite attr_own; [|auto|apply Hi; destruct Ef as [->| ->]; simpl; auto]. apply not_true_iff_false.
      rewrite ozone_eqb_true. congruence. }
    destruct Ef as [Ef|Ef].
    - set (o := own (zn r) e) in *. set (g := gho (zn r) e) in *. rewrite Ef, Ho. auto.
    - set (o := own (zn r) e) in *. set (g := gho (zn r) e) in *. rewrite Ef, Ho, Hg. auto.
  Qed.

  Definition owner (f : nat) : nat :=
    match index_of (fun z => ozone_eqb (f_zone h f) (Some z)) (g_zones h) with Some j => j | None => 0 end.

  Lemma owner_ok : forall f r, r < N -> f_zone h f = Some (zn r) -> owner f = r.
  Proof.
    intros f r Hr E. unfold owner. rewrite E.
    assert (H : index_of (Nat.eqb (zn r)) (g_zones h) = Some r).
    { apply index_of_nodup; [apply (zo_nd h); apply Hready|apply zn_nth; auto]. }
    change (index_of (fun z => ozone_eqb (Some (zn r)) (Some z)) (g_zones h)) with (index_of (Nat.eqb (zn r)) (g_zones h)).
    rewrite H. auto.
  Qed.

  (** The value of the owner. *)
  Definition v (name : str) (f : nat) : val := data_get (d (owner f)) f name.

  (** Contents of the message from [r] to [s]. *)
  Definition P (name : str) (r s : nat) : list val := map (fun e => v name (own (zn r) e)) (L r s).

  Lemma P_length : forall name r s, length (P name r s) = c r s.
  Proof. intros. unfold P. apply map_length. Qed.

  Lemma P_ghost : forall name r s, nbr r s -> P name r s = map (fun e => v name (gho (zn s) e)) (L s r).
  Proof.
    intros name r s (Hr & Hs & Hne & _). unfold P. rewrite L_sym. apply map_ext_in. intros e He.
    apply L_In in He as [_ Hj].
    assert (Hzz : zn s <> zn r) by (intros E; apply Hne; symmetry; apply zn_inj; auto).
    destruct (own_gho _ _ _ Hj Hzz) as (_ & _ & E & _). rewrite E. auto.
  Qed.

  (* ---------------------------------------------------------------- *)
  (** * Filling the send buffer *)

  Definition own_same (r : nat) (x : fdata) : Prop := forall f, f_zone h f = Some (zn r) -> x f = d r f.

  Lemma put_row_ok : forall r s x name, nbr r s -> own_same r x ->
    forall es ids row j, incl es (L r s) -> positions (z_edges h (zn r)) es ids -> j + length es <= length row ->
    exists row', put_row h (zn r) x name row j ids = Ok row' /\ length row' = length row /\
      firstn (j + length es) row' = firstn j row ++ map (fun e => v name (own (zn r) e)) es.
  Proof.
    intros r s x name Hn Hx. induction es as [|e es IH]; intros ids row j Hi Hp Hl; inversion Hp; subst.
    - exists row. cbn [put_row]. split; [auto|]. split; [auto|]. cbn. rewrite Nat.add_0_r, app_nil_r. auto.
    - cbn [put_row]. destruct H1 as [Hk He].
      destruct (real_ghost r s e y Hn (Hi e (or_introl eq_refl)) Hk He) as [Er _]. rewrite Er. cbn [rbind].
      cbn [length] in Hl. rewrite py_set_nat by lia. cbn [rbind].
      destruct (IH l' (list_set row j (data_get x (own (zn r) e) name)) (S j)) as (row' & E & Hlen & Hf).
      { intros a Ha. apply Hi. simpl; auto. }
      { auto. }
      { rewrite list_set_length. lia. }
      exists row'. split; [auto|]. rewrite list_set_length in Hlen. split; [auto|].
      cbn [length map]. replace (j + S (length es)) with (S j + length es) by lia. rewrite Hf.
      assert (Ev : data_get x (own (zn r) e) name = v name (own (zn r) e)).
      { destruct Hn as (Hr & Hs & Hne & _).
        pose proof (proj2 (proj1 (L_In r s e) (Hi e (or_introl eq_refl)))) as Hj.
        assert (Hzz : zn r <> zn s) by (intros E'; apply Hne; apply zn_inj; auto).
        destruct (own_gho _ _ _ Hj Hzz) as (Eo & _). unfold v, data_get.
        rewrite (owner_ok _ r Hr Eo), (Hx _ Eo). auto. }
      rewrite Ev. 
      assert (Hfs : forall (l : list val) k w, k < length l -> firstn (S k) (list_set l k w) = firstn k l ++ [w]).
      { clear. induction l as [|a l IH]; intros [|k] w Hk; cbn in *; try lia; auto. f_equal. apply IH. lia. }
      rewrite Hfs by lia. rewrite <- app_assoc. auto.
  Qed.

  Definition shape (r : nat) (sb : list (list val)) : Prop :=
    length sb = length (bs r) /\
    forall i s ids row, nth_error (bs r) i = Some (s, ids) -> nth_error sb i = Some row -> length ids <= length row.

  Lemma put_rows_gen : forall r x name, r < N -> own_same r x ->
    forall b pre sb, bs r = pre ++ b -> shape r sb ->
    exists sb', put_rows h (zn r) x name sb (length pre) b = Ok sb' /\ shape r sb' /\
      (forall i, i < length pre -> nth_error sb' i = nth_error sb i) /\
      (forall i s ids, length pre <= i -> nth_error (bs r) i = Some (s, ids) ->
         exists row, nth_error sb' i = Some row /\ firstn (length ids) row = P name r s).
  Proof.
    intros r x name Hr Hx. induction b as [|[s ids] b IH]; intros pre sb Eb Hs; cbn [put_rows].
    - exists sb. split; [auto|]. split; [auto|]. split; [auto|]. intros i s ids Hi Hn.
      exfalso. assert (i < length (bs r)) by (apply nth_error_Some; congruence).
      rewrite Eb, app_nil_r in H. lia.
    - assert (Hi : nth_error (bs r) (length pre) = Some (s, ids)) by (rewrite Eb, nth_error_app2, Nat.sub_diag by lia; auto).
      destruct (bs_entry r _ s ids Hr Hi) as (Hn & Hp & _ & Hl).
      destruct Hs as [Hs1 Hs2].
      assert (Hlt : length pre < length sb) by (rewrite Hs1; apply nth_error_Some; congruence).
      destruct (nth_error sb (length pre)) as [row|] eqn:Erow; [|apply nth_error_None in Erow; lia].
      rewrite (py_get_nat _ _ _ row Erow). cbn [rbind].
      pose proof (Hs2 _ _ _ _ Hi Erow) as Hle.
      destruct (put_row_ok r s x name Hn Hx (L r s) ids row 0) as (row' & Er & Hlen & Hf); [apply incl_refl|auto| |].
      { fold (c r s). lia. }
      rewrite Er. cbn [rbind]. rewrite py_set_nat by auto. cbn [rbind].
      destruct (IH (pre ++ [(s, ids)]) (list_set sb (length pre) row')) as (sb' & E' & Hsh & H1 & H2).
      { rewrite <- app_assoc. auto. }
      { split; [rewrite list_set_length; auto|]. intros i s' ids' row2 Hi' Hrow2. rewrite nth_error_list_set in Hrow2.
        destruct (Nat.eq_dec i (length pre)) as [->|]; [|eauto].
        destruct (Nat.ltb_spec (length pre) (length sb)); [|lia]. inv Hrow2. rewrite Hlen.
        rewrite Hi in Hi'. inv Hi'. auto. }
      rewrite app_length in *. cbn [length] in *. replace (length pre + 1) with (S (length pre)) in E' by lia.
      exists sb'. split; [auto|]. split; [auto|]. split.
      + intros i Hlt'. rewrite H1 by lia. rewrite nth_error_list_set.
        destruct (Nat.eq_dec i (length pre)); [lia|auto].
      + intros i s' ids' Hge Hi'. destruct (Nat.eq_dec i (length pre)) as [->|Hne].
        * rewrite Hi in Hi'. inv Hi'. exists row'. rewrite H1 by lia. rewrite nth_error_list_set.
          destruct (Nat.eq_dec (length pre) (length pre)); [|congruence].
          destruct (Nat.ltb_spec (length pre) (length sb)); [|lia]. split; [auto|].
          cbn in Hf. unfold P. rewrite <- Hf. f_equal. auto.
        * apply H2; auto. lia.
  Qed.

  Lemma put_ok : forall r x name sb, r < N -> own_same r x -> shape r sb ->
    exists sb', put_rows h (zn r) x name sb 0 (bs r) = Ok sb' /\ shape r sb' /\
      forall s, nbr r s -> exists row, nth_error sb' (ix r s) = Some row /\ firstn (c r s) row = P name r s.
  Proof.
    intros r x name sb Hr Hx Hs.
    destruct (put_rows_gen r x name Hr Hx (bs r) [] sb eq_refl Hs) as (sb' & E & Hsh & _ & H2).
    exists sb'. split; [auto|]. split; [auto|]. intros s Hn. destruct (bs_find r s Hn) as (ids & Hi & _ & Hl).
    destruct (H2 (ix r s) s ids ltac:(cbn; lia) Hi) as (row & Hrow & Hf). exists row. rewrite <- Hl. auto.
  Qed.

  (* ---------------------------------------------------------------- *)
  (** * Reading the receive buffer *)

  Definition updated (name : str) (fs : list nat) (x x' : fdata) : Prop :=
    (forall f, ~ In f fs -> x' f = x f) /\
    (forall f, In f fs -> dget str_dec (x' f) name = Some (v name f)) /\
    (forall f k, k <> name -> dget str_dec (x' f) k = dget str_dec (x f) k).

  Lemma get_row_ok : forall r s name, nbr r s ->
    forall es ids row j x, incl es (L r s) -> positions (z_edges h (zn r)) es ids ->
    (forall i e, nth_error es i = Some e -> nth_error row (j + i) = Some (v name (gho (zn r) e))) ->
    exists x', get_row h (zn r) name row j ids x = Ok x' /\ updated name (map (gho (zn r)) es) x x'.
  Proof.
    intros r s name Hn. induction es as [|e es IH]; intros ids row j x Hi Hp Hrow; inversion Hp; subst.
    - exists x. cbn. split; [auto|]. split; [auto|]. split; [intros f []|auto].
    - cbn [get_row]. destruct H1 as [Hk He].
      destruct (real_ghost r s e y Hn (Hi e (or_introl eq_refl)) Hk He) as [_ Eg]. rewrite Eg. cbn [rbind].
      pose proof (Hrow 0 e eq_refl) as Hr0. rewrite Nat.add_0_r in Hr0. rewrite (py_get_nat _ _ _ _ Hr0). cbn [rbind].
      set (g := gho (zn r) e) in *. set (x1 := data_set x g name (v name g)).
      destruct (IH l' row (S j) x1) as (x' & E & U1 & U2 & U3).
      { intros a Ha. apply Hi. simpl; auto. }
      { auto. }
      { intros i a Ha. replace (S j + i) with (j + S i) by lia. apply Hrow. auto. }
      exists x'. split; [auto|]. cbn [map]. split; [|split].
      + intros f Hf. rewrite U1 by (intros Hin; apply Hf; simpl; auto). unfold x1, data_set.
        apply upd_neq. intros ->. apply Hf. simpl; auto.
      + intros f Hf. destruct (in_dec Nat.eq_dec f (map (gho (zn r)) es)) as [Hin|Hin]; [auto|].
        destruct Hf as [<-|Hf]; [|tauto]. rewrite U1 by auto. unfold x1, data_set. fold g. rewrite upd_eq.
        rewrite dget_dset. destruct (str_dec name name); [auto|congruence].
      + intros f k Hk'. rewrite U3 by auto. unfold x1, data_set.
        destruct (Nat.eq_dec f g) as [->|Hne].
        * rewrite upd_eq, dget_dset. destruct (str_dec k name); [congruence|auto].
        * rewrite upd_neq by auto. auto.
  Qed.

  Lemma get_rows_gen : forall r name rb, r < N ->
    (forall s, nbr r s -> exists row, nth_error rb (ix r s) = Some row /\ firstn (c r s) row = P name s r) ->
    forall b pre x, bs r = pre ++ b ->
    exists x', get_rows h (zn r) name rb (length pre) b x = Ok x' /\
      updated name (concat (map (fun p => map (gho (zn r)) (L r (fst p))) b)) x x'.
  Proof.
    intros r name rb Hr Hrow. induction b as [|[s ids] b IH]; intros pre x Eb; cbn [get_rows].
    - exists x. split; [auto|]. split; [auto|]. split; [intros f []|auto].
    - assert (Hi : nth_error (bs r) (length pre) = Some (s, ids)) by (rewrite Eb, nth_error_app2, Nat.sub_diag by lia; auto).
      destruct (bs_entry r _ s ids Hr Hi) as (Hn & Hp & Eix & Hl).
      destruct (Hrow s Hn) as (row & Er & Hf). rewrite <- Eix in Er.
      rewrite (py_get_nat _ _ _ row Er). cbn [rbind].
      destruct (get_row_ok r s name Hn (L r s) ids row 0 x) as (x1 & E1 & U1 & U2 & U3); [apply incl_refl|auto| |].
      { intros i e He. cbn [Nat.add].
        assert (Hlt : i < c r s) by (apply nth_error_Some; congruence).
        rewrite (P_ghost name s r (nbr_sym _ _ Hn)) in Hf.
        assert (Hx : nth_error (firstn (c r s) row) i = Some (v name (gho (zn r) e))).
        { rewrite Hf. rewrite nth_error_map, He. auto. }
        clear - Hx Hlt. revert row i Hx Hlt. induction (c r s) as [|k IHk]; intros row i Hx Hlt; [lia|].
        destruct row as [|a row]; [destruct i; discriminate|]. destruct i as [|i]; [auto|]. cbn in *. apply IHk; auto. lia. }
      rewrite E1. cbn [rbind].
      destruct (IH (pre ++ [(s, ids)]) x1) as (x' & E' & V1 & V2 & V3); [rewrite <- app_assoc; auto|].
      rewrite app_length in E'. cbn [length] in E'. replace (length pre + 1) with (S (length pre)) in E' by lia.
      exists x'. split; [auto|]. cbn [map concat fst]. split; [|split].
      + intros f Hnf. rewrite in_app_iff in Hnf. rewrite V1 by tauto. apply U1. tauto.
      + intros f Hin. destruct (in_dec Nat.eq_dec f (concat (map (fun p => map (gho (zn r)) (L r (fst p))) b))) as [H|H]; [auto|].
        apply in_app_iff in Hin as [Hin|Hin]; [|tauto]. rewrite V1 by auto. auto.
      + intros f k Hk. rewrite V3, U3; auto.
  Qed.

  Lemma ghosts_list : forall r f, r < N ->
    (In f (concat (map (fun p => map (gho (zn r)) (L r (fst p))) (bs r))) <-> ghost h (zn r) f).
  Proof.
    intros r f Hr. rewrite in_concat. split.
    - intros (l & Hl & Hf). apply in_map_iff in Hl as ([s ids] & <- & Hb). cbn in Hf.
      apply in_map_iff in Hf as (e & <- & He). apply In_nth_error in Hb as (i & Hi).
      destruct (bs_entry r i s ids Hr Hi) as ((_ & Hs & Hne & _) & _).
      apply L_In in He as [He Hj].
      assert (Hzz : zn r <> zn s) by (intros E; apply Hne; apply zn_inj; auto).
      destruct (own_gho _ _ _ Hj Hzz) as (Eo & Eg & _ & Ef).
      exists e, (own (zn r) e). split; [auto|]. split; [tauto|]. split; [auto|]. congruence.
    - intros (e & g & He & Ef & Eg & Hnf). destruct Hready as [[Ht Hz] _].
      destruct (t_edge_faces h Ht e He) as (_ & _ & Hi).
      assert (Hfg : In f (g_faces h)) by (apply Hi; destruct Ef as [-> | ->]; simpl; auto).
      destruct (zo_cover h Hz f Hfg) as (y & Hy & Ey). apply In_nth_error in Hy as (s & Hs).
      assert (HsN : s < N) by (apply nth_error_Some; congruence).
      assert (y = zn s) by (rewrite zn_nth in Hs by auto; congruence). subst y.
      assert (Hj : joins h (zn r) (zn s) e) by (exists g, f; tauto).
      assert (Hne : r <> s) by (intros ->; congruence).
      assert (Hn : nbr r s).
      { split; [auto|]. split; [auto|]. split; [auto|]. intros E0.
        assert (Hin : In e (L r s)) by (apply L_In; auto). rewrite E0 in Hin. destruct Hin. }
      destruct (bs_find r s Hn) as (ids & Hix & _).
      exists (map (gho (zn r)) (L r s)). split.
      + apply in_map_iff. exists (s, ids). split; [auto|]. eapply nth_error_In; eauto.
      + apply in_map_iff. exists e. split; [|apply L_In; auto].
        assert (Hzz : zn r <> zn s) by (intros E; apply Hne; apply zn_inj; auto).
        destruct (own_gho _ _ _ Hj Hzz) as (Eo & Eg' & _ & Ef').
        assert (Hor : f = own (zn r) e \/ f = gho (zn r) e).
        { assert (Hin : In f (e_faces h e)) by (destruct Ef as [-> | ->]; simpl; auto).
          destruct Ef' as [E'|E']; rewrite E' in Hin; simpl in Hin; intuition. }
        destruct Hor as [->| ->]; [congruence|auto].
  Qed.

  Lemma get_ok : forall r name rb x, r < N ->
    (forall s, nbr r s -> exists row, nth_error rb (ix r s) = Some row /\ firstn (c r s) row = P name s r) ->
    exists x', get_rows h (zn r) name rb 0 (bs r) x = Ok x' /\
      (forall f, ~ ghost h (zn r) f -> x' f = x f) /\
      (forall f, ghost h (zn r) f -> dget str_dec (x' f) name = Some (v name f)) /\
      (forall f k, k <> name -> dget str_dec (x' f) k = dget str_dec (x f) k).
  Proof.
    intros r name rb x Hr Hrow.
    destruct (get_rows_gen r name rb Hr Hrow (bs r) [] x eq_refl) as (x' & E & U1 & U2 & U3).
    exists x'. split; [auto|]. split; [|split; [|auto]].
    - intros f Hf. apply U1. rewrite ghosts_list; auto.
    - intros f Hf. apply U2. rewrite ghosts_list; auto.
  Qed.

  (* ---------------------------------------------------------------- *)
  (** * The invariant *)

  Let n := length names.
  Definition nm (m : nat) : str := nth m names [].
  Definition prog : list op := concat (map exchange names).

  Definition b2n (b : bool) : nat := if b then 1 else 0.
  Definition puts (m k : nat) : nat := m + b2n (1 <=? k).
  Definition sends (m k : nat) : nat := m + b2n (2 <=? k).
  Definition recvs (m k : nat) : nat := m + b2n (3 <=? k).
  Definition waits (m k : nat) : nat := m + b2n (4 <=? k).

  Definition data_at (r m : nat) (x : fdata) : Prop :=
    (forall f, ~ ghost h (zn r) f -> x f = d r f) /\
    (forall f name, ghost h (zn r) f -> In name (firstn m names) -> dget str_dec (x f) name = Some (v name f)) /\
    (forall f name, ~ In name (firstn m names) -> dget str_dec (x f) name = dget str_dec (d r f) name).

  Record rank_inv (r m k : nat) (x : rankst) : Prop := {
    ri_fail : r_fail x = None;
    ri_pos : m < n /\ k < 5 \/ m = n /\ k = 0;
    ri_prog : r_prog x = skipn (5 * m + k) prog;
    ri_data : data_at r m (r_data x);
    ri_send : shape r (r_send x);
    ri_recv : shape r (r_recv x);
    ri_full : forall s, nbr r s -> 1 <= puts m k -> exists row,
      nth_error (r_send x) (ix r s) = Some row /\ firstn (c r s) row = P (nm (puts m k - 1)) r s }.

  Record pair_inv (r s p a w wt q b : nat) (pend : list (nat * nat)) (fly : list (list val))
    (want : list (nat * nat)) (rb : list (list val)) : Prop := {
    pi_bq : b <= q;
    pi_qa : q <= a;
    pi_bw : b <= w;
    pi_wt : wt <= b;
    pi_p : p <= q + 1;
    pi_pend : pend = repeat (ix r s, c r s) (a - q);
    pi_fly : fly = map (fun m => P (nm m) r s) (seq b (q - b));
    pi_want : want = repeat (ix s r, c r s) (w - b);
    pi_got : 1 <= b -> exists row, nth_error rb (ix s r) = Some row /\ firstn (c r s) row = P (nm (b - 1)) r s }.

  Definition Inv (M K : nat -> nat) (q b : nat -> nat -> nat) (s : sysst) : Prop :=
    (forall r, r < N -> rank_inv r (M r) (K r) (s_rank s r)) /\
    (forall r t, nbr r t -> pair_inv r t (puts (M r) (K r)) (sends (M r) (K r)) (recvs (M t) (K t))
       (waits (M t) (K t)) (q r t) (b r t) (s_pend s r t) (s_fly s r t) (s_want s t r) (r_recv (s_rank s t))) /\
    (forall r t, ~ nbr r t -> s_pend s r t = [] /\ s_fly s r t = [] /\ s_want s t r = []).

  Lemma exchange_length : forall l : list str, length (concat (map exchange l)) = 5 * length l.
  Proof. induction l; cbn [map concat length]; auto. rewrite app_length, IHl. cbn [exchange length]. lia. Qed.

  Lemma prog_nth : forall l m k, m < length l -> k < 5 ->
    nth_error (concat (map exchange l)) (5 * m + k) = nth_error (exchange (nth m l [])) k.
  Proof.
    induction l as [|a l IH]; intros m k Hm Hk; [cbn in Hm; lia|].
    cbn [map concat]. destruct m as [|m].
    - rewrite nth_error_app1 by (cbn; lia). auto.
    - rewrite nth_error_app2 by (cbn [exchange length]; lia).
      replace (5 * S m + k - length (exchange a)) with (5 * m + k) by (cbn [exchange length]; lia).
      apply IH; cbn in Hm; lia.
  Qed.

  Lemma skipn_nth : forall A (l : list A) k x, nth_error l k = Some x -> skipn k l = x :: skipn (S k) l.
  Proof. induction l; intros [|k] x H; cbn in *; try discriminate; [inv H; auto|auto]. Qed.

  Lemma next_op : forall m k, m < n -> k < 5 ->
    exists o, nth_error (exchange (nm m)) k = Some o /\ skipn (5 * m + k) prog = o :: skipn (S (5 * m + k)) prog.
  Proof.
    intros m k Hm Hk. pose proof (prog_nth names m k Hm Hk) as E. fold (nm m) in E. fold prog in E.
    destruct (nth_error (exchange (nm m)) k) as [o|] eqn:Eo.
    - exists o. split; [auto|]. apply skipn_nth. auto.
    - apply nth_error_None in Eo. cbn in Eo. lia.
  Qed.

  Lemma nm_in : forall m, m < n -> In (nm m) names.
  Proof. intros. apply nth_In. auto. Qed.

  Lemma firstn_names : forall m, m < n -> firstn (S m) names = firstn m names ++ [nm m].
  Proof.
    unfold nm, n. clear. induction names as [|a l IH]; intros [|m] H; cbn in *; try lia; auto. f_equal. apply IH. lia.
  Qed.

  Lemma start_inv : forall sb rb, buffers_ok h bs sb -> buffers_ok h bs rb ->
    Inv (fun _ => 0) (fun _ => 0) (fun _ _ => 0) (fun _ _ => 0) (start names d sb rb).
  Proof.
    intros sb rb Hs Hr.
    assert (Sh : forall x, buffers_ok h bs x -> forall r, r < N -> shape r (x r)).
    { intros x Hx r Hlt. destruct (Hx r Hlt) as [H1 H2]. split; [auto|]. intros i s ids row Hi Hrow.
      apply (H2 row (s, ids)); eapply nth_error_In; eauto. }
    split; [|split].
    - intros r Hlt. constructor; cbn [start s_rank r_fail r_prog r_data r_send r_recv]; auto.
      + destruct n; [right; auto|left; lia].
      + split; [auto|]. split; [|auto]. intros f name _ [].
      + intros s _ Hp. cbn in Hp. lia.
    - intros r t Hn. constructor; cbn; auto. lia.
    - intros. cbn. auto.
  Qed.

  (** Changing the position of one rank only. *)
  Lemma waitall : forall q t, no_want h q = true -> t < N -> q t = [].
  Proof.
    intros q t H Ht. unfold no_want in H. rewrite forallb_forall in H. specialize (H t).
    rewrite in_seq in H. specialize (H ltac:(fold N; lia)). destruct (q t); [auto|discriminate].
  Qed.

  Lemma own_not_ghost : forall r f, f_zone h f = Some (zn r) -> ~ ghost h (zn r) f.
  Proof. intros r f E (e & g & _ & _ & _ & H). auto. Qed.

  Lemma data_own : forall r m x, data_at r m x -> own_same r x.
  Proof. intros r m x (H & _) f Hf. apply H. apply own_not_ghost. auto. Qed.

  Lemma data_next : forall r m x x', m < n -> data_at r m x ->
    (forall f, ~ ghost h (zn r) f -> x' f = x f) ->
    (forall f, ghost h (zn r) f -> dget str_dec (x' f) (nm m) = Some (v (nm m) f)) ->
    (forall f k, k <> nm m -> dget str_dec (x' f) k = dget str_dec (x f) k) ->
    data_at r (S m) x'.
  Proof.
    intros r m x x' Hm (D1 & D2 & D3) E1 E2 E3.
    split; [|split].
    - intros f Hf. rewrite E1, D1; auto.
    - intros f name Hg Hin. rewrite (firstn_names m Hm), in_app_iff in Hin.
      destruct (str_dec name (nm m)) as [->|Hne]; [auto|]. rewrite E3 by auto. apply D2; auto.
      destruct Hin as [Hin|[Hin|[]]]; [auto|congruence].
    - intros f name Hin. rewrite (firstn_names m Hm), in_app_iff in Hin.
      assert (N1 : ~ In name (firstn m names)) by tauto.
      assert (N2 : name <> nm m) by (intros ->; apply Hin; simpl; auto).
      rewrite E3 by auto. apply D3. auto.
  Qed.

  Lemma rank_inv_pair : forall r m k x, rank_inv r m k x -> r_prog x <> [] -> m < n /\ k < 5.
  Proof.
    intros r m k x Hx Hp. destruct (ri_pos _ _ _ _ Hx) as [H|[-> ->]]; [auto|]. exfalso. apply Hp.
    rewrite (ri_prog _ _ _ _ Hx). apply skipn_all2. unfold prog. rewrite exchange_length. fold n. lia.
  Qed.

  Ltac pos_lia := unfold puts, sends, recvs, waits, b2n in *; cbn [Nat.leb] in *; lia.

  Lemma repeat_snoc : forall A (x : A) k, repeat x k ++ [x] = repeat x (S k).
  Proof. intros. symmetry. apply repeat_cons. Qed.

  (** One step of a rank. *)
  Lemma step_run : forall M K q b s r z s', Inv M K q b s -> before_reuse s (ARun r) ->
    nth_error (g_zones h) r = Some z -> run_op h (bs r) r z s = Some s' ->
    exists M' K', Inv M' K' q b s' /\
      5 * M' r + K' r = S (5 * M r + K r) /\ (forall t, t <> r -> M' t = M t /\ K' t = K t).
  Proof.
    intros M K q b s r z s' (HR & HP & HN) Hok Hz Hrun.
    assert (Hr : r < N) by (apply nth_error_Some; congruence).
    assert (z = zn r) by (rewrite zn_nth in Hz by auto; congruence). subst z. clear Hz.
    pose proof (HR r Hr) as Rr. unfold run_op in Hrun.
    assert (Hpn : r_prog (s_rank s r) <> []) by (intros E; rewrite E in Hrun; discriminate).
    destruct (rank_inv_pair _ _ _ _ Rr Hpn) as [Hm Hk].
    destruct (next_op (M r) (K r) Hm Hk) as (o & Ho & Eskip).
    pose proof (ri_prog _ _ _ _ Rr) as Eprog. rewrite Eskip in Eprog.
    remember (skipn (S (5 * M r + K r)) prog) as pn eqn:Epn in Eprog. clear Eskip.
    assert (Hcase : K r = 0 \/ K r = 1 \/ K r = 2 \/ K r = 3 \/ K r = 4) by lia.
    assert (Hmix : forall m' k', 5 * m' + k' = S (5 * M r + K r) ->
      5 * upd M r m' r + upd K r k' r = S (5 * M r + K r) /\
      (forall t, t <> r -> upd M r m' t = M t /\ upd K r k' t = K t)).
    { intros m' k' E. rewrite !upd_eq. split; [auto|]. intros t Ht. rewrite !upd_neq by auto. auto. }
    destruct Hcase as [Ek|[Ek|[Ek|[Ek|Ek]]]].
    - (* put *)
      rewrite Ek in Ho. cbn in Ho. injection Ho as Ho; subst o. rewrite Eprog in Hrun.
      destruct (put_ok r (r_data (s_rank s r)) (nm (M r)) (r_send (s_rank s r)) Hr (data_own _ _ _ (ri_data _ _ _ _ Rr)) (ri_send _ _ _ _ Rr))
        as (sb' & Ep & Hsh & Hrow).
      rewrite Ep in Hrun. injection Hrun as Hrun; subst s'.
      exists (upd M r (M r)), (upd K r 1). split; [|apply Hmix; lia].
      split; [|split].
      + intros t Ht. cbn [with_rank s_rank]. destruct (Nat.eq_dec t r) as [->|Hne].
        * rewrite !upd_eq. constructor; cbn [r_fail r_prog r_data r_send r_recv]; try lia; auto.
          -- rewrite Epn, Ek. f_equal. lia.
          -- apply Rr.
          -- apply Rr.
          -- intros t Hn _. destruct (Hrow t Hn) as (row & E1 & E2). exists row. split; [auto|]. rewrite E2.
             f_equal. f_equal. pos_lia.
        * rewrite !upd_neq by auto. auto.
      + intros t u Hn. cbn [with_rank s_rank s_pend s_fly s_want]. specialize (HP t u Hn).
        assert (Ew : recvs (upd M r (M r) u) (upd K r 1 u) = recvs (M u) (K u) /\
                     waits (upd M r (M r) u) (upd K r 1 u) = waits (M u) (K u)).
        { destruct (Nat.eq_dec u r) as [->|]; [rewrite !upd_eq, Ek; split; pos_lia|rewrite !upd_neq by auto; auto]. }
        destruct Ew as [-> ->].
        set (x' := {| r_data := _; r_send := _; r_recv := _; r_prog := _; r_fail := _ |}).
        assert (Erb : r_recv (upd (s_rank s) r x' u) = r_recv (s_rank s u)).
        { destruct (Nat.eq_dec u r) as [->|]; [rewrite upd_eq; auto|rewrite upd_neq by auto; auto]. }
        rewrite Erb. destruct (Nat.eq_dec t r) as [->|Hne].
        * rewrite !upd_eq. pose proof (Hok r _ _ eq_refl Eprog u) as He.
          destruct HP as [p1 p2 p3 p4 p5 p6 p7 p8 p9]. rewrite Ek in *.
          rewrite He in p6.
          assert (sends (M r) 0 - q r u = 0) by (destruct (sends (M r) 0 - q r u); [auto|discriminate]).
          constructor; auto; try pos_lia. rewrite p6 in He. rewrite He. 
          replace (sends (M r) 1 - q r u) with 0 by pos_lia. auto.
        * rewrite !(upd_neq _ _ _ _ t) by auto. auto.
      + intros t u Hn. apply HN. auto.
    - (* sends *)
      rewrite Ek in Ho. cbn in Ho. injection Ho as Ho; subst o. rewrite Eprog in Hrun. injection Hrun as Hrun; subst s'.
      exists (upd M r (M r)), (upd K r 2). split; [|apply Hmix; lia].
      split; [|split].
      + intros t Ht. cbn [s_rank]. destruct (Nat.eq_dec t r) as [->|Hne].
        * rewrite !upd_eq. constructor; cbn [r_fail r_prog r_data r_send r_recv]; try lia; auto.
          -- rewrite Epn, Ek. f_equal. lia.
          -- apply Rr.
          -- apply Rr.
          -- apply Rr.
          -- intros t Hn _. pose proof (ri_full _ _ _ _ Rr t Hn) as Hf. rewrite Ek in Hf.
             replace (puts (M r) 2) with (puts (M r) 1) by pos_lia. apply Hf. pos_lia.
        * rewrite !upd_neq by auto. auto.
      + intros t u Hn. cbn [s_rank s_pend s_fly s_want]. specialize (HP t u Hn).
        assert (Ew : recvs (upd M r (M r) u) (upd K r 2 u) = recvs (M u) (K u) /\
                     waits (upd M r (M r) u) (upd K r 2 u) = waits (M u) (K u)).
        { destruct (Nat.eq_dec u r) as [->|]; [rewrite !upd_eq, Ek; split; pos_lia|rewrite !upd_neq by auto; auto]. }
        destruct Ew as [-> ->].
        set (x' := {| r_data := _; r_send := _; r_recv := _; r_prog := _; r_fail := _ |}).
        assert (Erb : r_recv (upd (s_rank s) r x' u) = r_recv (s_rank s u)).
        { destruct (Nat.eq_dec u r) as [->|]; [rewrite upd_eq; auto|rewrite upd_neq by auto; auto]. }
        rewrite Erb. destruct (Nat.eq_dec t r) as [->|Hne].
        * rewrite !upd_eq. rewrite (post_nbr r u _ Hn).
          destruct HP as [p1 p2 p3 p4 p5 p6 p7 p8 p9]. rewrite Ek in *.
          constructor; auto; try pos_lia. rewrite p6, repeat_snoc. f_equal. pos_lia.
        * rewrite !(upd_neq _ _ _ _ t) by auto. auto.
      + intros t u Hn. cbn [s_rank s_pend s_fly s_want]. destruct (HN t u Hn) as (H1 & H2 & H3).
        split; [|auto]. destruct (Nat.eq_dec t r) as [->|Hne]; [|rewrite upd_neq by auto; auto].
        rewrite upd_eq, post_not by auto. auto.
    - (* recvs *)
      rewrite Ek in Ho. cbn in Ho. injection Ho as Ho; subst o. rewrite Eprog in Hrun. injection Hrun as Hrun; subst s'.
      exists (upd M r (M r)), (upd K r 3). split; [|apply Hmix; lia].
      split; [|split].
      + intros t Ht. cbn [s_rank]. destruct (Nat.eq_dec t r) as [->|Hne].
        * rewrite !upd_eq. constructor; cbn [r_fail r_prog r_data r_send r_recv]; try lia; auto.
          -- rewrite Epn, Ek. f_equal. lia.
          -- apply Rr.
          -- apply Rr.
          -- apply Rr.
          -- intros t Hn _. pose proof (ri_full _ _ _ _ Rr t Hn) as Hf. rewrite Ek in Hf.
             replace (puts (M r) 3) with (puts (M r) 2) by pos_lia. apply Hf. pos_lia.
        * rewrite !upd_neq by auto. auto.
      + intros t u Hn. cbn [s_rank s_pend s_fly s_want]. specialize (HP t u Hn).
        assert (Ew : puts (upd M r (M r) t) (upd K r 3 t) = puts (M t) (K t) /\
                     sends (upd M r (M r) t) (upd K r 3 t) = sends (M t) (K t) /\
                     waits (upd M r (M r) u) (upd K r 3 u) = waits (M u) (K u)).
        { destruct (Nat.eq_dec u r) as [->|]; [rewrite !upd_eq, Ek|rewrite !(upd_neq _ _ _ _ u) by auto];
          (destruct (Nat.eq_dec t r) as [->|]; [rewrite !upd_eq, Ek|rewrite !(upd_neq _ _ _ _ t) by auto]);
          repeat split; pos_lia. }
        destruct Ew as (-> & -> & ->).
        set (x' := {| r_data := _; r_send := _; r_recv := _; r_prog := _; r_fail := _ |}).
        assert (Erb : r_recv (upd (s_rank s) r x' u) = r_recv (s_rank s u)).
        { destruct (Nat.eq_dec u r) as [->|]; [rewrite upd_eq; auto|rewrite upd_neq by auto; auto]. }
        rewrite Erb. destruct (Nat.eq_dec u r) as [->|Hne].
        * rewrite !upd_eq. rewrite (post_nbr r t _ (nbr_sym _ _ Hn)).
          destruct HP as [p1 p2 p3 p4 p5 p6 p7 p8 p9]. rewrite Ek in *.
          constructor; auto; try pos_lia. rewrite p8, (c_sym r t), repeat_snoc. f_equal. pos_lia.
        * rewrite !(upd_neq _ _ _ _ u) by auto. auto.
      + intros t u Hn. cbn [s_rank s_pend s_fly s_want]. destruct (HN t u Hn) as (H1 & H2 & H3).
        split; [auto|]. split; [auto|]. destruct (Nat.eq_dec u r) as [->|Hne]; [|rewrite upd_neq by auto; auto].
        rewrite upd_eq, post_not; auto. intros H. apply Hn, nbr_sym. auto.
    - (* wait *)
      rewrite Ek in Ho. cbn in Ho. injection Ho as Ho; subst o. rewrite Eprog in Hrun.
      destruct (no_want h (s_want s r)) eqn:Ewant; [|discriminate]. injection Hrun as Hrun; subst s'.
      exists (upd M r (M r)), (upd K r 4). split; [|apply Hmix; lia].
      split; [|split].
      + intros t Ht. cbn [with_rank s_rank]. destruct (Nat.eq_dec t r) as [->|Hne].
        * rewrite !upd_eq. constructor; cbn [r_fail r_prog r_data r_send r_recv]; try lia; auto.
          -- rewrite Epn, Ek. f_equal. lia.
          -- apply Rr.
          -- apply Rr.
          -- apply Rr.
          -- intros t Hn _. pose proof (ri_full _ _ _ _ Rr t Hn) as Hf. rewrite Ek in Hf.
             replace (puts (M r) 4) with (puts (M r) 3) by pos_lia. apply Hf. pos_lia.
        * rewrite !upd_neq by auto. auto.
      + intros t u Hn. cbn [with_rank s_rank s_pend s_fly s_want]. specialize (HP t u Hn).
        assert (Ew : puts (upd M r (M r) t) (upd K r 4 t) = puts (M t) (K t) /\
                     sends (upd M r (M r) t) (upd K r 4 t) = sends (M t) (K t) /\
                     recvs (upd M r (M r) u) (upd K r 4 u) = recvs (M u) (K u)).
        { destruct (Nat.eq_dec u r) as [->|]; [rewrite !upd_eq, Ek|rewrite !(upd_neq _ _ _ _ u) by auto];
          (destruct (Nat.eq_dec t r) as [->|]; [rewrite !upd_eq, Ek|rewrite !(upd_neq _ _ _ _ t) by auto]);
          repeat split; pos_lia. }
        destruct Ew as (-> & -> & ->).
        set (x' := {| r_data := _; r_send := _; r_recv := _; r_prog := _; r_fail := _ |}).
        assert (Erb : r_recv (upd (s_rank s) r x' u) = r_recv (s_rank s u)).
        { destruct (Nat.eq_dec u r) as [->|]; [rewrite upd_eq; auto|rewrite upd_neq by auto; auto]. }
        rewrite Erb. destruct (Nat.eq_dec u r) as [->|Hne].
        * rewrite !upd_eq.
          destruct HP as [p1 p2 p3 p4 p5 p6 p7 p8 p9]. rewrite Ek in *.
          constructor; auto; try pos_lia.
          rewrite (waitall _ t Ewant (proj1 Hn)) in p8.
          destruct (recvs (M r) 3 - b t r) eqn:E0; [pos_lia|discriminate].
        * rewrite !(upd_neq _ _ _ _ u) by auto. auto.
      + intros t u Hn. apply HN. auto.
    - (* get *)
      rewrite Ek in Ho. cbn in Ho. injection Ho as Ho; subst o. rewrite Eprog in Hrun.
      destruct (get_ok r (nm (M r)) (r_recv (s_rank s r)) (r_data (s_rank s r)) Hr) as (x1 & Eg & G1 & G2 & G3).
      { intros t Hn. pose proof (HP t r (nbr_sym _ _ Hn)) as [p1 p2 p3 p4 p5 p6 p7 p8 p9]. rewrite Ek in *.
        destruct p9 as (row & E1 & E2); [pos_lia|]. exists row. split; [auto|]. rewrite c_sym, E2.
        f_equal. f_equal. pos_lia. }
      rewrite Eg in Hrun. injection Hrun as Hrun; subst s'.
      exists (upd M r (S (M r))), (upd K r 0). split; [|apply Hmix; lia].
      split; [|split].
      + intros t Ht. cbn [with_rank s_rank]. destruct (Nat.eq_dec t r) as [->|Hne].
        * rewrite !upd_eq. constructor; cbn [r_fail r_prog r_data r_send r_recv]; try lia; auto.
          -- rewrite Epn, Ek. f_equal. lia.
          -- eapply data_next; eauto. apply Rr.
          -- apply Rr.
          -- apply Rr.
          -- intros t Hn _. pose proof (ri_full _ _ _ _ Rr t Hn) as Hf. rewrite Ek in Hf.
             replace (puts (S (M r)) 0) with (puts (M r) 4) by pos_lia. apply Hf. pos_lia.
        * rewrite !upd_neq by auto. auto.
      + intros t u Hn. cbn [with_rank s_rank s_pend s_fly s_want]. specialize (HP t u Hn).
        assert (Ew : puts (upd M r (S (M r)) t) (upd K r 0 t) = puts (M t) (K t) /\
                     sends (upd M r (S (M r)) t) (upd K r 0 t) = sends (M t) (K t) /\
                     recvs (upd M r (S (M r)) u) (upd K r 0 u) = recvs (M u) (K u) /\
                     waits (upd M r (S (M r)) u) (upd K r 0 u) = waits (M u) (K u)).
        { destruct (Nat.eq_dec u r) as [->|]; [rewrite !upd_eq, Ek|rewrite !(upd_neq _ _ _ _ u) by auto];
          (destruct (Nat.eq_dec t r) as [->|]; [rewrite !upd_eq, Ek|rewrite !(upd_neq _ _ _ _ t) by auto]);
          repeat split; pos_lia. }
        destruct Ew as (-> & -> & -> & ->).
        set (x' := {| r_data := _; r_send := _; r_recv := _; r_prog := _; r_fail := _ |}).
        assert (Erb : r_recv (upd (s_rank s) r x' u) = r_recv (s_rank s u)).
        { destruct (Nat.eq_dec u r) as [->|]; [rewrite upd_eq; auto|rewrite upd_neq by auto; auto]. }
        rewrite Erb. auto.
      + intros t u Hn. apply HN. auto.
  Qed.

  Lemma ix_lt : forall r s x, nbr r s -> shape r x -> exists row, nth_error x (ix r s) = Some row /\ c r s <= length row.
  Proof.
    intros r s x Hn [H1 H2]. destruct (bs_find r s Hn) as (ids & Hi & _ & Hl).
    destruct (nth_error x (ix r s)) as [row|] eqn:E.
    - exists row. split; [auto|]. rewrite <- Hl. eapply H2; eauto.
    - apply nth_error_None in E. assert (ix r s < length (bs r)) by (apply nth_error_Some; congruence). lia.
  Qed.

  Lemma step_inject : forall M K q b s r t s', Inv M K q b s ->
    do_act h bs (AInject r t) s = Some s' ->
    nbr r t /\ q r t < sends (M r) (K r) /\ Inv M K (upd2 q r t (S (q r t))) b s'.
  Proof.
    intros M K q b s r t s' (HR & HP & HN) Hdo. cbn [do_act] in Hdo.
    destruct (nbr_dec r t) as [Hn|Hn].
    2:{ destruct (HN r t Hn) as (E & _). rewrite E in Hdo. discriminate. }
    pose proof (HP r t Hn) as Hp0. destruct Hp0 as [p1 p2 p3 p4 p5 p6 p7 p8 p9].
    pose proof (HR r (proj1 Hn)) as Rr.
    destruct (sends (M r) (K r) - q r t) as [|k] eqn:Ek; rewrite p6 in Hdo; [discriminate|]. cbn [repeat] in Hdo.
    assert (Hsp : sends (M r) (K r) <= puts (M r) (K r)).
    { unfold puts, sends, b2n. destruct (Nat.leb_spec 2 (K r)), (Nat.leb_spec 1 (K r)); lia. }
    destruct (ri_full _ _ _ _ Rr t Hn) as (row & Er & Ef); [lia|].
    rewrite Er in Hdo. inv Hdo. split; [auto|]. split; [lia|].
    assert (Eq : puts (M r) (K r) - 1 = q r t) by lia.
    split; [|split].
    - auto.
    - intros r' t' Hn'. cbn [s_rank s_pend s_fly s_want].
      destruct (Nat.eq_dec r' r) as [->|]; [destruct (Nat.eq_dec t' t) as [->|]|].
      + rewrite !upd2_eq. constructor; auto; try lia.
        * f_equal. lia.
        * rewrite p7, Ef, Eq. replace (S (q r t) - b r t) with (S (q r t - b r t)) by lia.
          rewrite seq_S, map_app. cbn [map]. do 3 f_equal. f_equal. lia.
      + rewrite !upd2_neq by auto. auto.
      + rewrite !upd2_neq by auto. auto.
    - intros r' t' Hn'. cbn [s_rank s_pend s_fly s_want].
      assert (r' <> r \/ t' <> t) by (destruct (Nat.eq_dec r' r), (Nat.eq_dec t' t); subst; tauto).
      rewrite !upd2_neq by auto. auto.
  Qed.

  Lemma step_deliver : forall M K q b s r t s', Inv M K q b s ->
    do_act h bs (ADeliver r t) s = Some s' ->
    nbr r t /\ b r t < q r t /\ Inv M K q (upd2 b r t (S (b r t))) s'.
  Proof.
    intros M K q b s r t s' (HR & HP & HN) Hdo. cbn [do_act] in Hdo.
    destruct (nbr_dec r t) as [Hn|Hn].
    2:{ destruct (HN r t Hn) as (_ & E & _). rewrite E in Hdo. discriminate. }
    pose proof (HP r t Hn) as Hp0. destruct Hp0 as [p1 p2 p3 p4 p5 p6 p7 p8 p9].
    pose proof (HR t (proj1 (proj2 Hn))) as Rt.
    destruct (q r t - b r t) as [|k] eqn:Ek; rewrite p7 in Hdo; [discriminate|]. cbn [seq map] in Hdo.
    destruct (recvs (M t) (K t) - b r t) as [|k'] eqn:Ek'; rewrite p8 in Hdo; [discriminate|]. cbn [repeat] in Hdo.
    destruct (ix_lt t r (r_recv (s_rank s t)) (nbr_sym _ _ Hn) (ri_recv _ _ _ _ Rt)) as (row & Er & Hl).
    rewrite Er in Hdo. rewrite P_length, Nat.leb_refl in Hdo. inv Hdo. split; [auto|]. split; [lia|].
    set (m := P (nm (b r t)) r t) in *.
    set (row' := m ++ skipn (c r t) row).
    assert (Hlr : length row' = length row).
    { unfold row', m. rewrite app_length, skipn_length, P_length. rewrite c_sym in Hl. lia. }
    assert (Hnth : forall j, nth_error (list_set (r_recv (s_rank s t)) (ix t r) row') j =
        if Nat.eq_dec j (ix t r) then Some row' else nth_error (r_recv (s_rank s t)) j).
    { intros j. rewrite nth_error_list_set. destruct (Nat.eq_dec j (ix t r)); [|auto]. subst j.
      destruct (Nat.ltb_spec (ix t r) (length (r_recv (s_rank s t)))); [auto|].
      apply nth_error_None in H. congruence. }
    split; [|split].
    - intros u Hu. cbn [s_rank]. destruct (Nat.eq_dec u t) as [->|]; [|rewrite upd_neq by auto; auto].
      rewrite upd_eq. destruct Rt as [R1 R2 R3 R4 R5 R6 R7]. constructor; cbn [r_fail r_prog r_data r_send r_recv]; auto.
      destruct R6 as [S1 S2]. split; [rewrite list_set_length; auto|].
      intros i s0 ids row0 Hi Hrow0. rewrite Hnth in Hrow0.
      destruct (Nat.eq_dec i (ix t r)) as [->|]; [|eauto]. inv Hrow0. rewrite Hlr. eauto.
    - intros r' t' Hn'. cbn [s_rank s_pend s_fly s_want]. specialize (HP r' t' Hn').
      destruct (Nat.eq_dec t' t) as [->|Ht].
      + rewrite upd_eq. cbn [r_recv]. destruct (Nat.eq_dec r' r) as [->|Hr'].
        * rewrite !upd2_eq. constructor; auto; try lia.
          -- f_equal. f_equal. lia.
          -- f_equal. lia.
          -- intros _. exists row'. rewrite Hnth. destruct (Nat.eq_dec (ix t r) (ix t r)); [|congruence]. split; [auto|].
             unfold row'. replace (c r t) with (length m) at 1 by apply P_length. rewrite firstn_app, Nat.sub_diag, firstn_O, app_nil_r, firstn_all.
             unfold m. do 2 f_equal. lia.
        * rewrite !upd2_neq by auto. destruct HP as [o1 o2 o3 o4 o5 o6 o7 o8 o9]. constructor; auto.
          intros Hb. destruct (o9 Hb) as (row0 & E0 & F0). exists row0. rewrite Hnth.
          destruct (Nat.eq_dec (ix t r') (ix t r)) as [Eix|]; [|auto]. exfalso. apply Hr'.
          destruct (bs_find t r' (nbr_sym _ _ Hn')) as (ids1 & I1 & _).
          destruct (bs_find t r (nbr_sym _ _ Hn)) as (ids2 & I2 & _). congruence.
      + rewrite !upd2_neq by auto. rewrite upd_neq by auto. auto.
    - intros r' t' Hn'. cbn [s_rank s_pend s_fly s_want].
      assert (r' <> r \/ t' <> t) by (destruct (Nat.eq_dec r' r), (Nat.eq_dec t' t); subst; tauto).
      rewrite !upd2_neq by tauto. auto.
  Qed.

  (* ---------------------------------------------------------------- *)
  (** * Reachable states *)

  Variables sb rb : nat -> list (list val).
  Hypothesis Hsb : buffers_ok h bs sb.
  Hypothesis Hrb : buffers_ok h bs rb.

  Definition total (M K : nat -> nat) (q b : nat -> nat -> nat) : nat :=
    list_sum (map (fun r => 5 * M r + K r) (seq 0 N)) +
    list_sum (map (fun r => list_sum (map (fun t => q r t + b r t) (seq 0 N))) (seq 0 N)).

  Lemma lsum_point : forall l (f g : nat -> nat) k, NoDup l -> In k l ->
    (forall i, In i l -> i <> k -> g i = f i) -> g k = S (f k) ->
    list_sum (map g l) = S (list_sum (map f l)).
  Proof.
    induction l as [|a l IH]; intros f g k Hnd Hin He Hk; [destruct Hin|].
    apply NoDup_cons_iff in Hnd as [Ha Hnd]. cbn [map]. rewrite !lsum_cons. destruct Hin as [->|Hin].
    - rewrite Hk. assert (E : map g l = map f l).
      { apply map_ext_in. intros i Hi. apply He; [simpl; auto|]. intros ->. auto. }
      rewrite E. lia.
    - rewrite (IH f g k Hnd Hin); auto.
      + rewrite He; [lia|simpl; auto|]. intros ->. auto.
      + intros i Hi. apply He. simpl. auto.
  Qed.

  Lemma lsum_bound : forall l (f : nat -> nat) B, (forall i, In i l -> f i <= B) -> list_sum (map f l) <= length l * B.
  Proof.
    induction l as [|a l IH]; intros f B H; [auto|]. cbn [map length]. rewrite lsum_cons.
    pose proof (H a (or_introl eq_refl)). pose proof (IH f B (fun i Hi => H i (or_intror Hi))). lia.
  Qed.

  (** Counters of pairs that are not neighbours are not used; they stay zero. *)
  Definition clean (q b : nat -> nat -> nat) : Prop := forall r t, ~ nbr r t -> q r t = 0 /\ b r t = 0.

  (** Every step moves the counters by one. *)
  Lemma step_inv : forall M K q b s a s', Inv M K q b s -> clean q b -> before_reuse s a -> do_act h bs a s = Some s' ->
    exists M' K' q' b', Inv M' K' q' b' s' /\ clean q' b' /\ total M' K' q' b' = S (total M K q b).
  Proof.
    intros M K q b s a s' HI Hc Hok Hdo. destruct a as [r|r t|r t].
    - cbn [do_act] in Hdo. destruct (nth_error (g_zones h) r) as [z|] eqn:Ez; [|discriminate].
      destruct (step_run M K q b s r z s' HI Hok Ez Hdo) as (M' & K' & HI' & E1 & E2).
      exists M', K', q, b. split; [auto|]. split; [auto|]. unfold total.
      rewrite (lsum_point (seq 0 N) (fun i => 5 * M i + K i) (fun i => 5 * M' i + K' i) r); auto.
      + apply seq_NoDup.
      + apply in_seq. split; [lia|]. apply nth_error_Some. cbn. congruence.
      + intros i _ Hi. destruct (E2 i Hi) as [-> ->]. auto.
    - destruct (step_inject M K q b s r t s' HI Hdo) as (Hn & _ & HI').
      exists M, K, (upd2 q r t (S (q r t))), b. split; [auto|]. split.
      { intros i j Hij. destruct (Nat.eq_dec i r) as [->|]; [destruct (Nat.eq_dec j t) as [->|]|];
          [tauto|rewrite upd2_neq by auto; auto|rewrite upd2_neq by auto; auto]. }
      unfold total.
      rewrite (lsum_point (seq 0 N) (fun i => list_sum (map (fun j => q i j + b i j) (seq 0 N)))
        (fun i => list_sum (map (fun j => upd2 q r t (S (q r t)) i j + b i j) (seq 0 N))) r); [lia|apply seq_NoDup| | |].
      + apply in_seq. destruct Hn. lia.
      + intros i _ Hi. f_equal. apply map_ext. intros j. rewrite upd2_neq; auto.
      + rewrite (lsum_point (seq 0 N) (fun j => q r j + b r j) (fun j => upd2 q r t (S (q r t)) r j + b r j) t); auto.
        * apply seq_NoDup.
        * apply in_seq. destruct Hn as (_ & Hn & _). lia.
        * intros j _ Hj. rewrite upd2_neq; auto.
        * rewrite upd2_eq. lia.
    - destruct (step_deliver M K q b s r t s' HI Hdo) as (Hn & _ & HI').
      exists M, K, q, (upd2 b r t (S (b r t))). split; [auto|]. split.
      { intros i j Hij. destruct (Nat.eq_dec i r) as [->|]; [destruct (Nat.eq_dec j t) as [->|]|];
          [tauto|rewrite upd2_neq by auto; auto|rewrite upd2_neq by auto; auto]. }
      unfold total.
      rewrite (lsum_point (seq 0 N) (fun i => list_sum (map (fun j => q i j + b i j) (seq 0 N)))
        (fun i => list_sum (map (fun j => q i j + upd2 b r t (S (b r t)) i j) (seq 0 N))) r); [lia|apply seq_NoDup| | |].
      + apply in_seq. destruct Hn. lia.
      + intros i _ Hi. f_equal. apply map_ext. intros j. rewrite upd2_neq; auto.
      + rewrite (lsum_point (seq 0 N) (fun j => q r j + b r j) (fun j => q r j + upd2 b r t (S (b r t)) r j) t); auto.
        * apply seq_NoDup.
        * apply in_seq. destruct Hn as (_ & Hn & _). lia.
        * intros j _ Hj. rewrite upd2_neq; auto.
        * rewrite upd2_eq. lia.
  Qed.

  Lemma reached_inv : forall s, reached before_reuse h bs (start names d sb rb) s ->
    exists M K q b, Inv M K q b s /\ clean q b.
  Proof.
    intros s H. induction H as [|s a s' H IH Hok Hdo].
    - eexists _, _, _, _. split; [apply start_inv; auto|]. intros r t _. auto.
    - destruct IH as (M & K & q & b & HI & Hc).
      destruct (step_inv M K q b s a s' HI Hc Hok Hdo) as (M' & K' & q' & b' & HI' & Hc' & _). eauto 8.
  Qed.

  Lemma single_before : length names = 1 -> forall M K q b s a, Inv M K q b s -> before_reuse s a.
  Proof.
    intros H1 M K q b s a (HR & HP & HN) r name p -> Ep t.
    destruct (nbr_dec r t) as [Hn|Hn]; [|apply HN; auto].
    pose proof (HR r (proj1 Hn)) as Rr.
    destruct (rank_inv_pair _ _ _ _ Rr) as [Hm Hk]; [congruence|]. unfold n in Hm.
    assert (M r = 0) by lia.
    destruct (next_op (M r) (K r) Hm Hk) as (o & Ho & Es).
    rewrite (ri_prog _ _ _ _ Rr), Es in Ep. injection Ep as -> _.
    assert (K r = 0). { destruct (K r) as [|[|[|[|[|k]]]]]; cbn in Ho; try discriminate; auto. destruct k; discriminate. }
    destruct (HP r t Hn) as [p1 p2 p3 p4 p5 p6 p7 p8 p9]. rewrite p6. rewrite H, H0. cbn. auto.
  Qed.

  Lemma single_reached : length names = 1 -> forall s,
    reached any_time h bs (start names d sb rb) s -> reached before_reuse h bs (start names d sb rb) s.
  Proof.
    intros H1 s H. induction H as [|s a s' H IH Hok Hdo]; [constructor|].
    apply (reached_step _ _ _ _ s a s'); auto.
    destruct (reached_inv s IH) as (M & K & q & b & HI & _). eapply single_before; eauto.
  Qed.

  (** No deadlock. *)
  Lemma bdec : forall (Q : nat -> Prop), (forall i, {Q i} + {~ Q i}) -> forall k,
    {exists i, i < k /\ Q i} + {forall i, i < k -> ~ Q i}.
  Proof.
    intros Q Hd. induction k as [|k IH]; [right; intros; lia|].
    destruct IH as [IH|IH]; [left; destruct IH as (i & Hi & HQ); exists i; split; [lia|auto]|].
    destruct (Hd k); [left; exists k; split; [lia|auto]|].
    right. intros i Hi. destruct (Nat.eq_dec i k) as [->|]; [auto|]. apply IH. lia.
  Qed.

  Lemma minimal : forall (f : nat -> nat) k, 0 < k -> exists r, r < k /\ forall t, t < k -> f r <= f t.
  Proof.
    intros f. induction k as [|k IH]; intros H; [lia|]. destruct k as [|k].
    - exists 0. split; [lia|]. intros t Ht. assert (t = 0) by lia. subst. auto.
    - destruct IH as (r & Hr & Hm); [lia|]. destruct (le_lt_dec (f r) (f (S k))).
      + exists r. split; [lia|]. intros t Ht. destruct (Nat.eq_dec t (S k)) as [->|]; [auto|]. apply Hm. lia.
      + exists (S k). split; [lia|]. intros t Ht. destruct (Nat.eq_dec t (S k)) as [->|]; [auto|].
        specialize (Hm t). lia.
  Qed.

  Lemma rank_done : forall r m k x, rank_inv r m k x -> r_prog x = [] -> m = n /\ k = 0.
  Proof.
    intros r m k x Hx Hp. destruct (ri_pos _ _ _ _ Hx) as [[Hm Hk]|H]; [|auto].
    destruct (next_op m k Hm Hk) as (o & _ & Es). rewrite (ri_prog _ _ _ _ Hx), Es in Hp. discriminate.
  Qed.

  Lemma progress : forall M K q b s, Inv M K q b s ->
    finished h s \/ exists a s', before_reuse s a /\ do_act h bs a s = Some s'.
  Proof.
    intros M K q b s HI. destruct HI as (HR & HP & HN).
    destruct (bdec (fun r => r_prog (s_rank s r) <> []) ltac:(intros i; destruct (r_prog (s_rank s i)) eqn:E; [right; intros HH; apply HH; exact E|left; rewrite E; discriminate]) N)
      as [Hun|Hfin].
    2:{ left. intros r Hr. split; [|apply (HR r Hr)]. specialize (Hfin r Hr).
        destruct (r_prog (s_rank s r)); [auto|]. exfalso. apply Hfin. discriminate. }
    right.
    assert (Hp1 : {exists r t, nbr r t /\ q r t < sends (M r) (K r)} + {forall r t, nbr r t -> q r t = sends (M r) (K r)}).
    { destruct (bdec (fun r => exists t, t < N /\ (nbr r t /\ q r t < sends (M r) (K r)))) with (k := N) as [H|H].
      - intros r. destruct (bdec (fun t => nbr r t /\ q r t < sends (M r) (K r))) with (k := N) as [H|H].
        + intros t. destruct (nbr_dec r t); [|right; tauto]. destruct (lt_dec (q r t) (sends (M r) (K r))); [left|right]; tauto.
        + left. auto.
        + right. intros (t & Ht & Hq). apply (H t Ht Hq).
      - left. destruct H as (r & _ & t & _ & H). eauto.
      - right. intros r t Hn. destruct (HP r t Hn) as [p1 p2 p3 p4 p5 p6 p7 p8 p9].
        destruct (lt_dec (q r t) (sends (M r) (K r))) as [Hlt|]; [|lia]. exfalso.
        apply (H r (proj1 Hn)). exists t. split; [apply Hn|auto]. }
    destruct Hp1 as [(r & t & Hn & Hq)|Hinj].
    { exists (AInject r t). destruct (HP r t Hn) as [p1 p2 p3 p4 p5 p6 p7 p8 p9]. cbn [do_act]. rewrite p6.
      destruct (sends (M r) (K r) - q r t) as [|k] eqn:Ek; [lia|]. cbn [repeat].
      destruct (ix_lt r t _ Hn (ri_send _ _ _ _ (HR r (proj1 Hn)))) as (row & Er & _). rewrite Er.
      eexists. split; [|reflexivity]. intros r0 name p E. discriminate. }
    assert (Hpend : forall r t, s_pend s r t = []).
    { intros r t. destruct (nbr_dec r t) as [Hn|Hn]; [|apply HN; auto]. rewrite (pi_pend _ _ _ _ _ _ _ _ _ _ _ _ (HP r t Hn)).
      rewrite (Hinj r t Hn), Nat.sub_diag. auto. }
    assert (Hp2 : {exists r t, nbr r t /\ b r t < q r t /\ b r t < recvs (M t) (K t)} +
                  {forall r t, nbr r t -> b r t = q r t \/ b r t = recvs (M t) (K t)}).
    { destruct (bdec (fun r => exists t, t < N /\ (nbr r t /\ b r t < q r t /\ b r t < recvs (M t) (K t)))) with (k := N) as [H|H].
      - intros r. destruct (bdec (fun t => nbr r t /\ b r t < q r t /\ b r t < recvs (M t) (K t))) with (k := N) as [H|H].
        + intros t. destruct (nbr_dec r t); [|right; tauto]. destruct (lt_dec (b r t) (q r t)); [|right; tauto].
          destruct (lt_dec (b r t) (recvs (M t) (K t))); [left|right]; tauto.
        + left. auto.
        + right. intros (t & Ht & Hq). apply (H t Ht Hq).
      - left. destruct H as (r & _ & t & _ & H). eauto.
      - right. intros r t Hn. destruct (HP r t Hn) as [p1 p2 p3 p4 p5 p6 p7 p8 p9].
        destruct (lt_dec (b r t) (q r t)) as [Hlt|]; [|lia].
        destruct (lt_dec (b r t) (recvs (M t) (K t))) as [Hlt'|]; [|lia]. exfalso.
        apply (H r (proj1 Hn)). exists t. split; [apply Hn|auto]. }
    destruct Hp2 as [(r & t & Hn & Hq & Hw)|Hdel].
    { exists (ADeliver r t). destruct (HP r t Hn) as [p1 p2 p3 p4 p5 p6 p7 p8 p9]. cbn [do_act]. rewrite p7, p8.
      destruct (q r t - b r t) as [|k] eqn:Ek; [lia|]. destruct (recvs (M t) (K t) - b r t) as [|k'] eqn:Ek'; [lia|].
      cbn [seq map repeat].
      destruct (ix_lt t r _ (nbr_sym _ _ Hn) (ri_recv _ _ _ _ (HR t (proj1 (proj2 Hn))))) as (row & Er & _). rewrite Er.
      eexists. split; [|reflexivity]. intros r0 name p E. discriminate. }
    destruct Hun as (r0 & Hr0 & Hu).
    destruct (minimal (fun r => 5 * M r + K r) N) as (r & Hr & Hmin); [lia|].
    assert (Hpn : r_prog (s_rank s r) <> []).
    { intros E. destruct (rank_done _ _ _ _ (HR r Hr) E) as [Em Ek].
      destruct (rank_inv_pair _ _ _ _ (HR r0 Hr0) Hu) as [Hm0 Hk0]. specialize (Hmin r0 Hr0). cbn beta in Hmin. rewrite Em, Ek in Hmin. lia. }
    destruct (rank_inv_pair _ _ _ _ (HR r Hr) Hpn) as [Hm Hk].
    destruct (next_op (M r) (K r) Hm Hk) as (o & Ho & Es).
    assert (Erun : exists s', run_op h (bs r) r (zn r) s = Some s').
    { unfold run_op. rewrite (ri_prog _ _ _ _ (HR r Hr)), Es.
      assert (Hcase : K r = 0 \/ K r = 1 \/ K r = 2 \/ K r = 3 \/ K r = 4) by lia.
      destruct Hcase as [Ek|[Ek|[Ek|[Ek|Ek]]]]; rewrite Ek in Ho; cbn in Ho; injection Ho as Ho; subst o; eauto.
      assert (Hw : no_want h (s_want s r) = true); [|rewrite Hw; eauto].
      apply forallb_forall. intros t Ht. apply in_seq in Ht. assert (HtN : t < N) by (unfold N; lia).
      destruct (nbr_dec t r) as [Hn|Hn].
      - rewrite (pi_want _ _ _ _ _ _ _ _ _ _ _ _ (HP t r Hn)).
        replace (recvs (M r) (K r) - b t r) with 0; [auto|].
        destruct (Hdel t r Hn) as [E|E]; [|lia]. rewrite E, (Hinj t r Hn).
        specialize (Hmin t HtN). cbn beta in Hmin. rewrite Ek in *.
        assert (recvs (M r) 3 <= sends (M t) (K t)); [|lia].
        assert (K t < 5) by (destruct (ri_pos _ _ _ _ (HR t HtN)); lia).
        unfold recvs, sends, b2n. change (3 <=? 3) with true. destruct (Nat.leb_spec 2 (K t)); lia.
      - destruct (HN t r Hn) as (_ & _ & ->). auto. }
    destruct Erun as (s' & Erun). exists (ARun r), s'. split.
    - intros r1 name p E Ep k. apply Hpend.
    - cbn [do_act]. rewrite zn_nth by auto. auto.
  Qed.

  (** Result. *)
  Lemma inv_finished : forall M K q b s, Inv M K q b s -> finished h s -> exchanged h names d s.
  Proof.
    intros M K q b s (HR & HP & HN) Hf r z Hz.
    assert (Hr : r < N) by (apply nth_error_Some; congruence).
    assert (z = zn r) by (rewrite zn_nth in Hz by auto; congruence). subst z.
    destruct (rank_done _ _ _ _ (HR r Hr) (proj1 (Hf r Hr))) as [Em _].
    destruct (ri_data _ _ _ _ (HR r Hr)) as (D1 & D2 & D3).
    assert (En : firstn (M r) names = names) by (rewrite Em; apply firstn_all).
    rewrite En in *.
    split; [|split; [|split]]; auto.
    - intros f Ef. apply D1. apply own_not_ghost. auto.
    - intros f j name Hg (y & Hy & Ey) Hin. rewrite D2 by auto. unfold v.
      assert (HjN : j < N) by (apply nth_error_Some; congruence).
      assert (y = zn j) by (rewrite zn_nth in Hy by auto; congruence). subst y.
      rewrite (owner_ok f j HjN Ey). auto.
  Qed.

  Lemma inv_quiet : forall M K q b s, Inv M K q b s -> finished h s ->
    forall r t, s_pend s r t = [] /\ s_fly s r t = [] /\ s_want s r t = [].
  Proof.
    intros M K q b s (HR & HP & HN) Hf.
    assert (A : forall r t, s_pend s r t = [] /\ s_fly s r t = [] /\ s_want s t r = []).
    { intros r t. destruct (nbr_dec r t) as [Hn|Hn]; [|auto].
      pose proof Hn as (Hr & Ht & _).
      destruct (rank_done _ _ _ _ (HR r Hr) (proj1 (Hf r Hr))) as [Em Ek].
      destruct (rank_done _ _ _ _ (HR t Ht) (proj1 (Hf t Ht))) as [Em' Ek'].
      destruct (HP r t Hn) as [p1 p2 p3 p4 p5 p6 p7 p8 p9]. rewrite Em, Ek, Em', Ek' in *.
      rewrite p6, p7, p8.
      replace (sends n 0 - q r t) with 0 by pos_lia. replace (q r t - b r t) with 0 by pos_lia.
      replace (recvs n 0 - b r t) with 0 by pos_lia. auto. }
    intros r t. split; [apply A|]. split; [apply A|]. apply (A t r).
  Qed.

  Lemma lsum_seq_bound : forall k (f : nat -> nat) B, (forall i, i < k -> f i <= B) -> list_sum (map f (seq 0 k)) <= k * B.
  Proof.
    intros k f B H. pose proof (lsum_bound (seq 0 k) f B) as E. rewrite seq_length in E. apply E.
    intros i Hi. apply in_seq in Hi. apply H. lia.
  Qed.

  Definition qb_bound : nat := N * (5 * n + 5) + N * (N * (2 * n + 2)).

  Lemma total_bound : forall M K q b s, Inv M K q b s -> clean q b -> total M K q b <= qb_bound.
  Proof.
    intros M K q b s (HR & HP & HN) Hc. unfold total, qb_bound. apply Nat.add_le_mono.
    - apply lsum_seq_bound. intros r Hr. destruct (ri_pos _ _ _ _ (HR r ltac:(lia))); lia.
    - apply lsum_seq_bound. intros r Hr. apply lsum_seq_bound. intros t Ht.
      destruct (nbr_dec r t) as [Hn|Hn]; [|destruct (Hc r t Hn); lia].
      destruct (HP r t Hn) as [p1 p2 p3 p4 p5 p6 p7 p8 p9].
      assert (sends (M r) (K r) <= n + 1).
      { destruct (ri_pos _ _ _ _ (HR r ltac:(lia))); unfold sends, b2n; destruct (2 <=? K r); lia. }
      lia.
  Qed.

  (** No infinite run. *)
  Lemma terminates_aux : forall k M K q b s, Inv M K q b s -> clean q b -> qb_bound - total M K q b < k ->
    Acc (fun s2 s1 => exists a, before_reuse s1 a /\ do_act h bs a s1 = Some s2) s.
  Proof.
    induction k as [|k IH]; intros M K q b s HI Hc Hlt; [lia|]. constructor. intros s2 (a & Hok & Hdo).
    destruct (step_inv M K q b s a s2 HI Hc Hok Hdo) as (M' & K' & q' & b' & HI' & Hc' & E).
    apply (IH M' K' q' b' s2 HI' Hc'). pose proof (total_bound _ _ _ _ _ HI' Hc'). lia.
  Qed.

  Lemma exchange_main : forall s, reached before_reuse h bs (start names d sb rb) s ->
    (forall r, r < length (g_zones h) -> r_fail (s_rank s r) = None) /\
    (finished h s \/ exists a s', before_reuse s a /\ do_act h bs a s = Some s') /\
    Acc (fun s2 s1 => exists a, before_reuse s1 a /\ do_act h bs a s1 = Some s2) s /\
    (finished h s -> exchanged h names d s /\
       forall r t, s_pend s r t = [] /\ s_fly s r t = [] /\ s_want s r t = []).
  Proof.
    intros s H. destruct (reached_inv s H) as (M & K & q & b & HI & Hc).
    split; [intros r Hr; apply (proj1 HI r Hr)|]. split; [eapply progress; eauto|].
    split; [eapply terminates_aux; eauto|]. intros Hf. split; [eapply inv_finished; eauto|eapply inv_quiet; eauto].
  Qed.

  Lemma exchange_single : length names = 1 -> forall s, reached any_time h bs (start names d sb rb) s ->
    (forall r, r < length (g_zones h) -> r_fail (s_rank s r) = None) /\
    (finished h s \/ exists a s', do_act h bs a s = Some s') /\
    Acc (fun s2 s1 => exists a, do_act h bs a s1 = Some s2) s /\
    (finished h s -> exchanged h names d s /\
       forall r t, s_pend s r t = [] /\ s_fly s r t = [] /\ s_want s r t = []).
  Proof.
    intros H1 s H. pose proof (single_reached H1 s H) as H'.
    destruct (exchange_main s H') as (E1 & E2 & E3 & E4).
    split; [auto|]. split; [destruct E2 as [E2|(a & s' & _ & E2)]; eauto|]. split; [|auto].
    clear E1 E2 E4 H'. induction E3 as [s _ IH]. constructor. intros s2 (a & Ha).
    apply IH.
    - exists a. split; [|auto].
      destruct (reached_inv s (single_reached H1 s H)) as (M & K & q & b & HI & _).
      eapply single_before; eauto.
    - eapply reached_step; eauto. exact I.
  Qed.
End ExchangeProofs.

Lemma do_acts_reached : forall {F : FloatOps} h bs s0 l s s', reached any_time h bs s0 s ->
  do_acts h bs l s = Some s' -> reached any_time h bs s0 s'.
Proof.
  intros F h bs s0. induction l as [|a l IH]; intros s s' Hs H; cbn [do_acts] in H; [inv H; auto|].
  destruct (do_act h bs a s) as [s1|] eqn:E; [|discriminate]. apply (IH s1 s'); auto.
  eapply reached_step; eauto. exact I.
Qed.
