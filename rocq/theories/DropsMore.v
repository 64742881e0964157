(** Proofs about the loop over faces and the data of faces after drops. *)

From Coq Require Import ZArith Reals Bool Lra Lia List.
From Verif Require Import Py PyLemmas Geom GeomSpec GeomProofs CloudProofs GeomMore Drops DropsSpec DropsProofs.
Import ListNotations.
Open Scope list_scope.
Open Scope R_scope.

(** ** Dictionaries *)

Lemma dpop_some : forall V (d : dict str V) k, In k (keys d) <-> exists d', dpop str_dec d k = Some d'.
Proof.
  induction d as [|[k' v] r IH]; cbn; intros k.
  - split; [intros []|intros [? H]; discriminate].
  - destruct (str_dec k k') as [->|N].
    + split; eauto.
    + rewrite <- (app_nil_l (keys r)) at 1. split.
      * intros [H|H]; [congruence|]. destruct (proj1 (IH k) H) as [d' E]. rewrite E. eauto.
      * intros [d' H]. right. apply IH. destruct (dpop str_dec r k); [eauto|discriminate].
Qed.

Lemma filter_out : forall (l : list str) k, ~ In k l -> filter (fun x => negb (str_eqb x k)) l = l.
Proof.
  induction l as [|x l IH]; cbn; intros k H; auto. unfold str_eqb at 1.
  destruct (str_dec x k) as [->|Q]; [exfalso; auto|]. cbn. f_equal. apply IH. auto.
Qed.

Lemma filter_twice : forall A (f g : A -> bool) l, filter f (filter g l) = filter (fun x => g x && f x) l.
Proof.
  induction l as [|x l IH]; cbn; auto. destruct (g x); cbn; [destruct (f x); cbn; rewrite IH; auto|auto].
Qed.

Lemma dpop_keys : forall V (d d' : dict str V) k, dpop str_dec d k = Some d' -> NoDup (keys d) ->
  keys d' = filter (fun x => negb (str_eqb x k)) (keys d).
Proof.
  induction d as [|[k' v] r IH]; cbn; intros d' k H N; [discriminate|]. inversion N as [|? ? N1 N2]; subst.
  destruct (str_dec k k') as [->|E].
  - inversion H; subst d'. unfold str_eqb at 1. destruct (str_dec k' k') as [_|Q]; [cbn|congruence].
    symmetry. apply filter_out; auto.
  - destruct (dpop str_dec r k) as [r'|] eqn:P; [|discriminate]. inversion H; subst d'. cbn.
    unfold str_eqb at 1. destruct (str_dec k' k) as [Q|_]; [congruence|]. cbn. f_equal. apply IH; auto.
Qed.

Lemma dpop_get : forall V (d d' : dict str V) k, dpop str_dec d k = Some d' -> NoDup (keys d) ->
  forall x, dget str_dec d' x = if str_dec x k then None else dget str_dec d x.
Proof.
  induction d as [|[k' v] r IH]; cbn; intros d' k H N x; [discriminate|]. inversion N as [|? ? N1 N2]; subst.
  destruct (str_dec k k') as [->|E].
  - inversion H; subst d'. destruct (str_dec x k') as [->|Q]; auto. apply dget_None; auto.
  - destruct (dpop str_dec r k) as [r'|] eqn:P; [|discriminate]. inversion H; subst d'. cbn.
    destruct (str_dec x k') as [->|Q].
    + destruct (str_dec k' k); congruence.
    + apply IH; auto.
Qed.

Lemma NoDup_filter_keys : forall V (d d' : dict str V) k, dpop str_dec d k = Some d' -> NoDup (keys d) -> NoDup (keys d').
Proof. intros. erewrite dpop_keys by eauto. apply NoDup_filter; auto. Qed.

Lemma pop_all_ok : forall ks d, NoDup (keys d) -> NoDup ks -> (forall k, In k ks -> In k (keys d)) ->
  exists d', pop_all ks d = Ok d' /\ NoDup (keys d') /\
    (forall x, dget str_dec d' x = if in_dec str_dec x ks then None else dget str_dec d x) /\
    keys d' = filter (fun x => negb (if in_dec str_dec x ks then true else false)) (keys d).
Proof.
  induction ks as [|k r IH]; intros d N Nk H.
  - exists d. cbn. repeat split; auto. symmetry. clear. induction (keys d); cbn; auto. f_equal; auto.
  - cbn [pop_all]. inversion Nk as [|? ? K1 K2]; subst.
    destruct (proj1 (dpop_some _ d k)) as [d' E]; [apply H; cbn; auto|]. rewrite E.
    pose proof (NoDup_filter_keys _ _ _ _ E N) as N'.
    destruct (IH d' N' K2) as (d'' & E2 & N2 & G2 & K3).
    + intros x Hx. erewrite dpop_keys by eauto. apply filter_In. split; [apply H; cbn; auto|].
      unfold str_eqb. destruct (str_dec x k) as [->|]; [contradiction|auto].
    + exists d''. repeat (split; auto).
      * intros x. rewrite G2. rewrite (dpop_get _ _ _ _ E N x).
        destruct (in_dec str_dec x (k :: r)) as [W|W]; destruct (in_dec str_dec x r) as [W'|W']; destruct (str_dec x k); cbn in W; try tauto; auto; exfalso;
          try (destruct W; [congruence|tauto]); apply W; left; congruence.
      * rewrite K3, (dpop_keys _ _ _ _ E N), filter_twice. apply filter_ext_in. intros x _. unfold str_eqb.
        destruct (in_dec str_dec x (k :: r)) as [W|W]; destruct (in_dec str_dec x r) as [W'|W']; destruct (str_dec x k); cbn in *; auto; exfalso;
          try (destruct W; [congruence|tauto]); try tauto; apply W; left; congruence.
Qed.

(** ** Removal of stall data, cleaning *)

Lemma stall_keys_nodup : NoDup stall_keys.
Proof. repeat constructor; cbn; intuition discriminate. Qed.

Lemma pop_all_fail : forall ks d k, NoDup (keys d) -> NoDup ks -> In k ks -> ~ In k (keys d) -> pop_all ks d = Raise EKeyError.
Proof.
  induction ks as [|x r IH]; intros d k N Nk Hk Hn; [destruct Hk|]. inversion Nk as [|? ? K1 K2]; subst. cbn [pop_all].
  destruct (dpop str_dec d x) as [d'|] eqn:E; auto. destruct Hk as [->|Hk].
  - exfalso. apply Hn, dpop_some. eauto.
  - apply (IH d' k); auto.
    + eapply NoDup_filter_keys; eauto.
    + rewrite (dpop_keys _ _ _ _ E N). rewrite filter_In. tauto.
Qed.

Lemma rmap_ok2 : forall A B (f : A -> res B) l, (forall x, In x l -> exists y, f x = Ok y) ->
  exists m, rmap f l = Ok m /\ Forall2 (fun x y => f x = Ok y) l m.
Proof.
  induction l as [|x l IH]; intros H; cbn; [exists []; auto|].
  destruct (H x) as [y E]; [cbn; auto|]. destruct IH as (m & E' & F); [intros; apply H; cbn; auto|].
  rewrite E, E'. cbn. eauto.
Qed.

Lemma rmap_raise : forall A B (f : A -> res B) e l x, In x l -> f x = Raise e -> (forall y, In y l -> (exists z, f y = Ok z) \/ f y = Raise e) ->
  rmap f l = Raise e.
Proof.
  induction l as [|y l IH]; intros x Hx Ex H; [destruct Hx|]. cbn.
  destruct (H y) as [[z E]|E]; [cbn; auto| |]; rewrite E; cbn; auto.
  destruct Hx as [->|Hx]; [congruence|]. rewrite (IH x); auto. intros; apply H; cbn; auto.
Qed.

(** The face after removal. *)
Definition stripped (f g : dface) : Prop :=
  same_place f g /\ dict_ok g /\
  (forall k, is_stall k -> dget str_dec (df_data g) k = None) /\
  (forall k, ~ is_stall k -> dget str_dec (df_data g) k = dget str_dec (df_data f) k) /\
  (exists keep, keys (df_data g) = filter keep (keys (df_data f)) /\ forall k, keep k = true <-> ~ is_stall k).

Theorem convert_ok : forall fs, Forall dict_ok fs -> (forall f k, In f fs -> is_stall k -> In k (keys (df_data f))) ->
  exists gs, convert_grid_stall_to_check_point fs = Ok gs /\ Forall2 stripped fs gs.
Proof.
  intros fs D H. unfold convert_grid_stall_to_check_point. rewrite Forall_forall in D.
  destruct (rmap_ok2 _ _ (fun f => do d <- pop_all stall_keys (df_data f); Ok (DFace (df_a f) (df_b f) (df_c f) d)) fs) as (gs & E & F).
  - intros f Hf. destruct (pop_all_ok stall_keys (df_data f)) as (d' & E & _); auto using stall_keys_nodup.
    + apply D; auto.
    + rewrite E. cbn. eauto.
  - exists gs. split; auto. assert (G : forall f, In f fs -> dict_ok f /\ forall k, is_stall k -> In k (keys (df_data f))).
    { intros f Hf; split; [apply D; auto|intros; apply H; auto]. }
    clear D H E. induction F as [|f g l m Hfg F IH]; constructor.
    + destruct (G f) as [N K]; [cbn; auto|].
      destruct (pop_all_ok stall_keys (df_data f)) as (d' & E & N' & G' & K'); auto using stall_keys_nodup.
      rewrite E in Hfg. cbn in Hfg. inversion Hfg; subst g. unfold stripped, same_place, dict_ok. cbn [df_a df_b df_c df_data].
      refine (conj (conj eq_refl (conj eq_refl eq_refl)) (conj N' (conj _ (conj _ _)))).
      * intros k Hk. rewrite G'. destruct (in_dec str_dec k stall_keys) as [|Q]; auto. exfalso; apply Q, Hk.
      * intros k Hk. rewrite G'. destruct (in_dec str_dec k stall_keys) as [Q|]; auto. exfalso; apply Hk, Q.
      * eexists. split; [exact K'|]. intros k. cbv beta. destruct (in_dec str_dec k stall_keys) as [Q|Q]; cbn [negb]; split; auto; try discriminate.
    + apply IH. intros x Hx; apply G; cbn; auto.
Qed.

Theorem convert_missing : forall fs f k, Forall dict_ok fs -> In f fs -> is_stall k -> ~ In k (keys (df_data f)) ->
  convert_grid_stall_to_check_point fs = Raise EKeyError.
Proof.
  intros fs f k D Hf Hk Hn. rewrite Forall_forall in D. unfold convert_grid_stall_to_check_point.
  apply rmap_raise with (x := f); auto.
  - rewrite (pop_all_fail _ _ k); auto using stall_keys_nodup. apply D; auto.
  - intros g Hg. destruct (Forall_Exists_dec (fun x => In x (keys (df_data g))) (fun x => in_dec str_dec x _) stall_keys) as [A|A].
    + left. rewrite Forall_forall in A. destruct (pop_all_ok stall_keys (df_data g)) as (d' & E & _); auto using stall_keys_nodup.
      * apply D; auto.
      * rewrite E. cbn. eauto.
    + right. apply Exists_exists in A. destruct A as (x & Hx & Nx). rewrite (pop_all_fail _ _ x); auto using stall_keys_nodup.
      apply D; auto.
Qed.

(** The face after cleaning. *)
Definition cleaned (f g : dface) : Prop :=
  same_place f g /\ (dict_ok f -> dict_ok g) /\
  (forall k, In k [kT; kHw; kHi] -> dget str_dec (df_data g) k = Some 0) /\
  (forall k, ~ In k [kT; kHw; kHi] -> dget str_dec (df_data g) k = dget str_dec (df_data f) k).

Theorem clean_ok : forall fs, Forall2 cleaned fs (clean_t_hw_hi fs).
Proof.
  induction fs as [|f fs IH]; cbn [clean_t_hw_hi map]; constructor; auto. unfold cleaned, same_place, dict_ok, setitem; cbn [df_a df_b df_c df_data].
  refine (conj (conj eq_refl (conj eq_refl eq_refl)) (conj _ (conj _ _))).
  - intros N. repeat apply NoDup_keys_dset. auto.
  - intros k Hk. rewrite !dget_dset. destruct (str_dec k kHi); auto. destruct (str_dec k kHw); auto. destruct (str_dec k kT); auto.
    exfalso. destruct Hk as [W|[W|[W|[]]]]; congruence.
  - intros k Hk. rewrite !dget_dset. destruct (str_dec k kHi); [exfalso; apply Hk; cbn; auto|].
    destruct (str_dec k kHw); [exfalso; apply Hk; cbn; auto|]. destruct (str_dec k kT); [exfalso; apply Hk; cbn; auto|]. auto.
Qed.

(** ** The loop over faces *)

(** Same place, same data except MImp2. *)
Definition like (f g : dface) : Prop :=
  same_place f g /\ (forall k, k <> kMImp2 -> dget str_dec (df_data g) k = dget str_dec (df_data f) k) /\ (dict_ok f -> dict_ok g).

Lemma like_refl : forall f, like f f.
Proof. intros f. unfold like, same_place. auto. Qed.

Lemma like_get : forall f g k, like f g -> k <> kMImp2 -> getitem g k = getitem f k.
Proof. intros f g k (_ & H & _) N. unfold getitem. rewrite H; auto. Qed.

Lemma like_triangle : forall f g i, like f g -> get_triangle g i = get_triangle f i.
Proof. intros f g i ((A & B & C) & _). unfold get_triangle. congruence. Qed.

Lemma like_flight : forall air c d dt n f g i, like f g -> flight air c d dt n g i = flight air c d dt n f i.
Proof.
  intros air c d dt n f g i H. unfold flight. rewrite (like_triangle f g i H), !(like_get f g) by (auto; discriminate). auto.
Qed.

Lemma like_set : forall f g x, like f g -> like f (setitem g kMImp2 x).
Proof.
  intros f g x ((A & B & C) & D & N). unfold like, same_place, setitem; cbn [df_a df_b df_c df_data]. repeat (split; auto).
  - intros k Hk. rewrite dget_dset. destruct (str_dec k kMImp2); [contradiction|auto].
  - intros Q. unfold dict_ok. cbn [df_data]. apply NoDup_keys_dset. apply N, Q.
Qed.

Lemma Forall2_nth1 : forall A B (P : A -> B -> Prop) l m i x, Forall2 P l m -> nth_error l i = Some x -> exists y, nth_error m i = Some y /\ P x y.
Proof.
  intros A B P l m i x H. revert i. induction H; intros [|i] E; cbn in *; try discriminate; eauto.
  inversion E; subst; eauto.
Qed.

Lemma Forall2_nth2 : forall A B (P : A -> B -> Prop) l m i y, Forall2 P l m -> nth_error m i = Some y -> exists x, nth_error l i = Some x /\ P x y.
Proof.
  intros A B P l m i x H. revert i. induction H; intros [|i] E; cbn in *; try discriminate; eauto.
  inversion E; subst; eauto.
Qed.

Lemma Forall2_set : forall A B (P : A -> B -> Prop) l m i x y, Forall2 P l m -> nth_error l i = Some x -> P x y -> Forall2 P l (list_set m i y).
Proof.
  intros A B P l m i x y H. revert i. induction H; intros [|i] E Q; cbn in *; try discriminate; constructor; auto.
  inversion E; subst; auto.
Qed.

Section LOOP.
  Variables (air : space) (c : cloud) (d dt thr : R) (n : Z) (fs : list dface).
  Let goes := lands air c d dt thr n fs.

  Definition wet (i : nat) : bool := match nth_error fs i with Some f => Rltb thr (getitem f kStall) | None => false end.

  Record upto (k : nat) (st : list dface * list (nat * list vect)) : Prop := Upto {
    up_like : Forall2 like fs (fst st);
    up_last : forall i j fi f g, nth_error fs i = Some fi -> nth_error fs j = Some f -> nth_error (fst st) j = Some g ->
      goes i j -> (i < k)%nat -> (forall i', goes i' j -> (i' < k)%nat -> (i' <= i)%nat) ->
      area (get_triangle f j) <> 0 /\ dget str_dec (df_data g) kMImp2 = Some (getitem fi kStall / area (get_triangle f j));
    up_none : forall j f g, nth_error fs j = Some f -> nth_error (fst st) j = Some g ->
      (forall i, (i < k)%nat -> ~ goes i j) -> dget str_dec (df_data g) kMImp2 = dget str_dec (df_data f) kMImp2;
    up_wet : map fst (snd st) = filter wet (seq 0 k);
    up_tr : forall i tr, In (i, tr) (snd st) -> exists f vd h, nth_error fs i = Some f /\ flight air c d dt n f i = Ok (vd, h, tr)
  }.

  Lemma upto_0 : upto 0 (fs, []).
  Proof.
    constructor; cbn [fst snd].
    - clear. induction fs; constructor; auto using like_refl.
    - intros; lia.
    - intros; congruence.
    - auto.
    - intros i tr [].
  Qed.

  Lemma seq_S_filter : forall k, filter wet (seq 0 (S k)) = filter wet (seq 0 k) ++ (if wet k then [k] else []).
  Proof. intros. rewrite seq_S, filter_app. cbn. destruct (wet k); auto. Qed.

  Lemma upto_S : forall k st st', upto k st -> drops_face air c d dt thr n st k = Ok st' -> upto (S k) st'.
  Proof.
    intros k [gs trs] st' U H. unfold drops_face in H.
    destruct (nth_error gs k) as [g|] eqn:Eg; [|discriminate].
    destruct (Forall2_nth2 _ _ _ _ _ _ _ (up_like _ _ U) Eg) as (f & Ef & Lk).
    rewrite (like_get f g) in H by (auto; discriminate).
    rewrite (like_flight air c d dt n f g k Lk) in H.
    destruct (Rltb thr (getitem f kStall)) eqn:W.
    2: { inversion H; subst st'. destruct U as [U1 U2 U3 U4 U5]. cbn [fst snd] in *.
      assert (NG : forall j, ~ goes k j).
      { intros j (f' & tr & E1 & E2 & _). assert (f' = f) by congruence. subst. apply Rltb_false in W. lra. }
      constructor; cbn [fst snd]; auto.
      - intros i j fi f0 g0 A B C D E F. apply (U2 i j); auto.
        destruct (Nat.eq_dec i k) as [->|]; [exfalso; eapply NG; eauto|lia].
      - intros j f0 g0 A B C. apply (U3 j); auto.
      - rewrite seq_S_filter, U4. unfold wet at 3. rewrite Ef, W, app_nil_r. auto. }
    apply Rltb_true in W.
    destruct (flight air c d dt n f k) as [[[vd h] tr]|e] eqn:F; [|discriminate]. cbn [rbind fst snd] in H.
    assert (T1 : map fst (trs ++ [(k, tr)]) = filter wet (seq 0 (S k))).
    { pose proof (up_wet _ _ U) as Q. cbn [snd] in Q. rewrite seq_S_filter, map_app, Q. unfold wet at 3. rewrite Ef. rewrite (proj2 (Rltb_true thr _)) by auto. auto. }
    assert (T2 : forall i tr', In (i, tr') (trs ++ [(k, tr)]) -> exists f vd h, nth_error fs i = Some f /\ flight air c d dt n f i = Ok (vd, h, tr')).
    { intros i tr' Hi. apply in_app_or in Hi. destruct Hi as [Hi|[Hi|[]]]; [apply (up_tr _ _ U); auto|]. inversion Hi; subst. eauto. }
    assert (Other : (forall j, ~ goes k j) -> upto (S k) (gs, trs ++ [(k, tr)])).
    { intros NG. destruct U as [U1 U2 U3 U4 U5]. cbn [fst snd] in *. constructor; cbn [fst snd]; auto.
      - intros i j fi f0 g0 A B C D E Q. apply (U2 i j); auto.
        destruct (Nat.eq_dec i k) as [->|]; [exfalso; eapply NG; eauto|lia].
      - intros j f0 g0 A B C. apply (U3 j); auto. }
    destruct vd; try (inversion H; subst st'; apply Other; intros j (f' & tr' & E1 & E2 & E3); congruence).
    destruct h as [j|]; [|inversion H; subst st'; apply Other; intros j (f' & tr' & E1 & E2 & E3); congruence].
    destruct (nth_error gs j) as [g2|] eqn:Eg2; [|discriminate].
    destruct (Forall2_nth2 _ _ _ _ _ _ _ (up_like _ _ U) Eg2) as (f2 & Ef2 & Lk2).
    rewrite (like_triangle f2 g2 j Lk2) in H. unfold py_div in H.
    destruct (Reqb (area (get_triangle f2 j)) 0) eqn:Ar; [discriminate|]. apply Reqb_false in Ar.
    cbn [rbind] in H. inversion H; subst st'. clear H Other.
    assert (Gk : goes k j) by (exists f, tr; auto).
    assert (Only : forall j', goes k j' -> j' = j) by (intros j' (f' & tr' & E1 & E2 & E3); congruence).
    destruct U as [U1 U2 U3 U4 U5]. cbn [fst snd] in *. constructor; cbn [fst snd]; auto.
    - apply (Forall2_set _ _ _ _ _ _ f2); auto. apply like_set; auto.
    - intros i j' fi f0 g0 A B C D E Q. rewrite nth_error_list_set in C.
      destruct (Nat.eq_dec j j') as [<-|Nj].
      + assert (g0 = setitem g2 kMImp2 (getitem f kStall / area (get_triangle f2 j))).
        { destruct (Nat.eq_dec j j); [|congruence]. assert (Hl : (j < length gs)%nat) by (apply nth_error_Some; congruence).
          apply Nat.ltb_lt in Hl. rewrite Hl in C. congruence. }
        subst g0. assert (f0 = f2) by congruence. subst f0.
        assert (i = k) by (pose proof (Q k Gk ltac:(lia)); lia). subst i. assert (fi = f) by congruence. subst fi.
        split; auto. unfold setitem. cbn [df_data]. rewrite dget_dset. destruct (str_dec kMImp2 kMImp2); congruence.
      + apply (U2 i j'); auto.
        * destruct (Nat.eq_dec j' j); [congruence|]. auto.
        * destruct (Nat.eq_dec i k) as [->|]; [exfalso; apply Nj; symmetry; auto|lia].
    - intros j' f0 g0 B C Q. rewrite nth_error_list_set in C.
      destruct (Nat.eq_dec j j') as [<-|Nj]; [exfalso; apply (Q k); auto; lia|].
      destruct (Nat.eq_dec j' j); [congruence|]. apply (U3 j'); auto.
  Qed.

  Lemma loop_upto : forall m k st st', upto k st -> drops_loop air c d dt thr n (seq k m) st = Ok st' -> upto (k + m) st'.
  Proof.
    induction m as [|m IH]; intros k st st' U H; cbn [seq drops_loop] in H.
    - inversion H; subst. rewrite Nat.add_0_r. auto.
    - destruct (drops_face air c d dt thr n st k) as [st1|e] eqn:E; [|discriminate]. cbn [rbind] in H.
      replace (k + S m)%nat with (S k + m)%nat by lia. apply (IH (S k) st1); auto. eapply upto_S; eauto.
  Qed.
End LOOP.

(** ** drops *)

Lemma convert_inv : forall fs gs, Forall dict_ok fs -> convert_grid_stall_to_check_point fs = Ok gs -> Forall2 stripped fs gs.
Proof.
  intros fs gs D E.
  destruct (Forall_Exists_dec (fun f => Forall (fun k => In k (keys (df_data f))) stall_keys)
              (fun f => Forall_dec _ (fun k => in_dec str_dec k _) stall_keys) fs) as [A|A].
  - rewrite Forall_forall in A. destruct (convert_ok fs D) as (gs' & E' & F).
    + intros f k Hf Hk. specialize (A f Hf). rewrite Forall_forall in A. apply A, Hk.
    + congruence.
  - exfalso. apply Exists_exists in A. destruct A as (f & Hf & Nf).
    destruct (Forall_Exists_dec (fun k => In k (keys (df_data f))) (fun k => in_dec str_dec k _) stall_keys) as [B|B]; [contradiction|].
    apply Exists_exists in B. destruct B as (k & Hk & Nk).
    rewrite (convert_missing fs f k D Hf Hk Nk) in E. discriminate.
Qed.

Lemma not_stall_other : ~ is_stall kMImp2 /\ ~ is_stall kT /\ ~ is_stall kHw /\ ~ is_stall kHi.
Proof. unfold is_stall. repeat split; cbn; intuition discriminate. Qed.

Lemma mimp2_other : ~ In kMImp2 [kT; kHw; kHi].
Proof. cbn. intuition discriminate. Qed.

Lemma stall_other : forall k, is_stall k -> ~ In k [kT; kHw; kHi].
Proof. destruct not_stall_other as (_ & A & B & C). intros k H [Q|[Q|[Q|[]]]]; subst; contradiction. Qed.

Lemma f2_length : forall A B (P : A -> B -> Prop) l m, Forall2 P l m -> length l = length m.
Proof. intros A B P l m H. induction H; cbn; auto. Qed.

Theorem drops_ok : forall fs ds d dt thr n gs trs, Forall dict_ok fs -> drops fs ds d dt thr n = Ok (gs, trs) ->
  exists c air, triangles_cloud (get_triangles_list fs) = Ok c /\ make_space ds = Ok air /\ length gs = length fs /\
  (map fst trs = filter (fun i => match nth_error fs i with Some f => Rltb thr (getitem f kStall) | None => false end) (seq 0 (length fs))) /\
  (forall i tr, In (i, tr) trs -> exists f vd h, nth_error fs i = Some f /\ flight air c d dt n f i = Ok (vd, h, tr)) /\
  forall j f g, nth_error fs j = Some f -> nth_error gs j = Some g ->
    same_place f g /\
    (forall k, is_stall k -> dget str_dec (df_data g) k = None) /\
    (forall k, In k [kT; kHw; kHi] -> dget str_dec (df_data g) k = Some 0) /\
    (forall k, ~ is_stall k -> ~ In k [kT; kHw; kHi] -> k <> kMImp2 -> dget str_dec (df_data g) k = dget str_dec (df_data f) k) /\
    (forall i fi, nth_error fs i = Some fi -> lands air c d dt thr n fs i j -> (forall i', lands air c d dt thr n fs i' j -> (i' <= i)%nat) ->
       area (get_triangle f j) <> 0 /\ dget str_dec (df_data g) kMImp2 = Some (getitem fi kStall / area (get_triangle f j))) /\
    ((forall i, ~ lands air c d dt thr n fs i j) -> dget str_dec (df_data g) kMImp2 = dget str_dec (df_data f) kMImp2).
Proof.
  intros fs ds d dt thr n gs trs D H. unfold drops in H.
  destruct (triangles_cloud (get_triangles_list fs)) as [c|] eqn:Ec; [|discriminate]. cbn [rbind] in H.
  destruct (make_space ds) as [air|] eqn:Es; [|discriminate]. cbn [rbind] in H.
  destruct (drops_loop air c d dt thr n (seq 0 (length fs)) (fs, [])) as [[hs trs']|] eqn:El; [|discriminate]. cbn [rbind fst snd] in H.
  destruct (convert_grid_stall_to_check_point hs) as [ms|] eqn:Em; [|discriminate]. cbn [rbind] in H. injection H as <- <-.
  exists c, air. split; auto. split; auto.
  pose proof (loop_upto air c d dt thr n fs _ _ _ _ (upto_0 air c d dt thr n fs) El) as U. cbn [Nat.add] in U.
  destruct U as [U1 U2 U3 U4 U5]. cbn [fst snd] in *.
  assert (Dh : Forall dict_ok hs).
  { clear -U1 D. induction U1; constructor; inversion D; subst; auto. apply H; auto. }
  pose proof (convert_inv hs ms Dh Em) as F2. pose proof (clean_ok ms) as F3.
  split; [|split; [exact U4|split; [exact U5|]]].
  { rewrite <- (f2_length _ _ _ _ _ F3), <- (f2_length _ _ _ _ _ F2), <- (f2_length _ _ _ _ _ U1). auto. }
  intros j f g Hf Hg.
  destruct (Forall2_nth2 _ _ _ _ _ _ _ F3 Hg) as (m & Hm & Cm).
  destruct (Forall2_nth2 _ _ _ _ _ _ _ F2 Hm) as (h & Hh & Sh).
  destruct (Forall2_nth1 _ _ _ _ _ _ _ U1 Hf) as (h' & Hh' & Lh). assert (h' = h) by congruence. subst h'.
  destruct Cm as (P3 & _ & C1 & C2). destruct Sh as (P2 & _ & S1 & S2 & _). destruct Lh as (P1 & L1 & _).
  assert (Mi : dget str_dec (df_data g) kMImp2 = dget str_dec (df_data h) kMImp2).
  { rewrite C2 by apply mimp2_other. apply S2, not_stall_other. }
  assert (Lt : forall i j, lands air c d dt thr n fs i j -> (i < length fs)%nat).
  { intros i j' (f' & tr & E & _). apply nth_error_Some. congruence. }
  split; [|split; [|split; [|split; [|split]]]].
  - unfold same_place in *. intuition congruence.
  - intros k Hk. rewrite C2 by (apply stall_other; auto). auto.
  - auto.
  - intros k Hk Hk' Hm'. rewrite C2, S2, L1; auto.
  - intros i fi Hi Hl Hmx. rewrite Mi. apply (U2 i j fi f h); auto.
    eapply Lt; eauto.
  - intros Hn. rewrite Mi. apply (U3 j f h); auto.
Qed.
