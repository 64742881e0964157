(** Names that load takes from a file can be written by store. *)

From Coq Require Import ZArith NArith Ascii String Bool Lia List Permutation.
From Verif Require Import Py PyLemmas Heap HeapLemmas GridModel GridSpec GridIO FileSpec TextLemmas LoadMain StoreSpec.
Import ListNotations.
Open Scope list_scope.
Open Scope nat_scope.

Lemma universal_no_cr : forall n s, length s <= n -> forall c, In c (universal_nl s) -> c <> cr.
Proof.
  assert (Nn : nl <> cr) by discriminate.
  induction n as [|n IH]; intros [|x s] L c H; cbn in L; try lia; try (destruct H; fail).
  cbn [universal_nl] in H. destruct (Ascii.eqb_spec x cr) as [->|Hx].
  - destruct s as [|d s].
    + destruct H as [<-|[]]; auto.
    + destruct (Ascii.eqb_spec d nl) as [->|Hd].
      * destruct H as [<-|H]; auto. apply (IH s) in H; auto. cbn in L. lia.
      * destruct H as [<-|H]; auto. apply (IH (d :: s)) in H; auto. cbn in *. lia.
  - destruct H as [<-|H]; auto. apply (IH s) in H; auto. lia.
Qed.

(** A line of a file: no carriage return, a line feed only at the end. *)
Definition file_line (l : str) : Prop :=
  (forall c, In c l -> c <> cr) /\ (forall c, In c (removelast l) -> c <> nl).

Lemma lines_file_line : forall s, (forall c, In c s -> c <> cr) -> forall l, In l (lines s) -> l <> [] /\ file_line l.
Proof.
  induction s as [|c s IH]; intros H l Hl; [destruct Hl|]. cbn [lines] in Hl.
  destruct (Ascii.eqb_spec c nl) as [->|Hc].
  - destruct Hl as [<-|Hl].
    + split; [discriminate|]. split; [intros c [<-|[]]; discriminate|intros c []].
    + apply IH; auto. intros; apply H; simpl; auto.
  - assert (H' : forall c, In c s -> c <> cr) by (intros; apply H; simpl; auto).
    specialize (IH H'). destruct (lines s) as [|l0 ls].
    + destruct Hl as [<-|[]]. split; [discriminate|]. split; [|intros d []].
      intros d [<-|[]]. apply H. simpl. auto.
    + destruct Hl as [<-|Hl]; [|apply IH; simpl; auto].
      destruct (IH l0 (or_introl eq_refl)) as [Hne [A B]]. split; [discriminate|]. split.
      * intros d [<-|Hd]; [apply H; simpl; auto|auto].
      * intros d. destruct l0 as [|y l0]; [contradiction|]. cbn [removelast].
        intros [<-|Hd]; [auto|]. apply B. exact Hd.
Qed.

Lemma file_lines_line : forall text l, In l (file_lines text) -> file_line l.
Proof.
  intros text l H. apply lines_file_line in H; [tauto|].
  intros c Hc. exact (universal_no_cr _ _ (le_n _) _ Hc).
Qed.

Lemma split_on_part : forall c s p, In p (split_on c s) -> ~ In c p /\ exists a b, s = a ++ p ++ b.
Proof.
  intros c. induction s as [|x s IH]; intros p H; cbn [split_on] in H.
  - destruct H as [<-|[]]. split; [intros []|]. exists [], []. reflexivity.
  - destruct (Ascii.eqb_spec x c) as [->|Hx].
    + destruct H as [<-|H].
      * split; [intros []|]. exists [], (c :: s). reflexivity.
      * destruct (IH p H) as [Hn (a & b & ->)]. split; [auto|]. exists (c :: a), b. reflexivity.
    + assert (G : forall w ws, split_on c s = w :: ws -> exists b, s = w ++ b).
      { clear - x. revert x. induction s as [|y s IH]; intros x w ws E; cbn [split_on] in E.
        - injection E as <- <-. exists []. reflexivity.
        - destruct (Ascii.eqb y c).
          + injection E as <- <-. exists (y :: s). reflexivity.
          + destruct (split_on c s) as [|w' ws'] eqn:E'.
            * injection E as <- <-. exists s. reflexivity.
            * injection E as <- <-. destruct (IH y w' ws' eq_refl) as (b & Eb). exists b. cbn. congruence. }
      destruct (split_on c s) as [|w ws] eqn:E.
      * destruct H as [<-|[]]. split; [intros [K|[]]; congruence|]. exists [], s. reflexivity.
      * destruct H as [<-|H].
        -- destruct (G w ws eq_refl) as (b & Eb). destruct (IH w (or_introl eq_refl)) as [Hn _].
           split; [intros [K|K]; [congruence|auto]|]. exists [], b. cbn. congruence.
        -- destruct (IH p (or_intror H)) as [Hn (a & b & ->)]. split; [auto|]. exists (x :: a), b. reflexivity.
Qed.

Lemma last_in_split : forall c s, In (last (split_on c s) []) (split_on c s).
Proof.
  intros c s. assert (split_on c s <> []).
  { destruct s as [|x s]; cbn; [discriminate|]. destruct (Ascii.eqb x c); [discriminate|].
    destruct (split_on c s); discriminate. }
  destruct (split_on c s) as [|w ws]; [congruence|]. clear H. revert w.
  induction ws as [|y ws IH]; intros w; cbn [last]; [left; auto|]. right. apply IH.
Qed.

Lemma in_removelast_mid : forall A (a p b : list A) c, In c (removelast p) -> In c (removelast (a ++ p ++ b)).
Proof.
  intros A a p b c H. assert (p <> []) by (intros ->; destruct H).
  rewrite removelast_app by (destruct p; [congruence|discriminate]). apply in_or_app. right.
  destruct b as [|y b]; [rewrite app_nil_r; auto|].
  rewrite removelast_app by discriminate. apply in_or_app. left.
  rewrite (app_removelast_last c H0). apply in_or_app. auto.
Qed.

Lemma in_firstn : forall A n (l : list A) x, In x (firstn n l) -> In x l.
Proof. intros A n l x H. rewrite <- (firstn_skipn n l). apply in_or_app. auto. Qed.

Lemma firstn_in_removelast : forall A n (l : list A) x, n < length l -> In x (firstn n l) -> In x (removelast l).
Proof.
  intros A n l x L H. assert (l <> []) by (intros ->; cbn in L; lia).
  rewrite (app_removelast_last x H0) in H. rewrite firstn_app in H.
  pose proof (app_removelast_last x H0) as E. apply (f_equal (@length A)) in E. rewrite app_length in E. cbn in E.
  replace (n - length (removelast l)) with 0 in H by lia. cbn in H. rewrite app_nil_r in H.
  eapply in_firstn; eauto.
Qed.

Lemma slice_removelast : forall A (l : list A) x, In x (py_slice l 1 (-2)) -> In x (removelast l).
Proof.
  intros A l x H. unfold py_slice in H.
  set (a := py_bound (length l) 1) in *. set (b := py_bound (length l) (-2)) in *.
  assert (Hb : b = length l - 2) by (unfold b, py_bound; cbn [Z.leb Z.compare]; lia).
  destruct (Nat.le_gt_cases (length l) 2) as [L|L].
  - replace (b - a) with 0 in H by lia. destruct H.
  - apply (firstn_in_removelast _ b); [lia|].
    rewrite <- (firstn_skipn a l). destruct (Nat.le_gt_cases a b).
    + rewrite firstn_app. apply in_or_app. right.
      assert (length (firstn a l) = a) as ->. { apply firstn_length_le. lia. }
      exact H.
    + replace (b - a) with 0 in H by lia. destruct H.
Qed.

Lemma slice_plain : forall line p, file_line line -> In p (split_on eqsign line) -> plain_name (py_slice p 1 (-2)).
Proof.
  intros line p [H1 H2] Hp c Hc. apply split_on_part in Hp as [Hn (a & b & E)].
  apply slice_removelast in Hc.
  assert (In c p). { destruct p as [|x p]; [destruct Hc|]. rewrite (app_removelast_last x) by discriminate.
    apply in_or_app. auto. }
  split; [congruence|]. split.
  - apply H2. rewrite E. apply in_removelast_mid. auto.
  - apply H1. rewrite E, !in_app_iff. auto.
Qed.

Lemma zone_name_plain : forall line name, file_line line -> zone_line line name -> plain_name name.
Proof.
  intros line name H (_ & _ & _ & _ & s & Hs & ->). red in Hs. subst s. apply (slice_plain line); auto.
  apply last_in_split.
Qed.

Lemma title_plain : forall line name, file_line line -> title_line line name -> plain_name name.
Proof.
  intros line name H (_ & _ & s & Hs & ->). apply (slice_plain line); auto. eapply nth_error_In; eauto.
Qed.

Lemma split_ws_words : forall s w, In w (split_ws s) ->
  w <> [] /\ forall c, In c w -> is_space c = false /\ In c s.
Proof.
  intros s. unfold split_ws.
  assert (G : forall cur w, (forall c, In c cur -> is_space c = false) -> In w (split_ws_aux cur s) ->
    w <> [] /\ forall c, In c w -> is_space c = false /\ (In c cur \/ In c s)).
  { induction s as [|x s IH]; intros cur w Hc H; cbn [split_ws_aux] in H.
    - destruct cur as [|y cur]; [destruct H|]. destruct H as [<-|[]].
      split.
      + intros K. apply (f_equal (@rev ascii)) in K. rewrite rev_involutive in K. discriminate.
      + intros c Hin. apply in_rev in Hin. auto.
    - destruct (is_space x) eqn:Ex.
      + destruct cur as [|y cur].
        * destruct (IH [] w (fun c K => match K with end) H) as [A B]. split; auto. intros c Hin.
          destruct (B c Hin) as [C [[]|D]]. simpl. auto.
        * destruct H as [<-|H].
          -- split.
             ++ intros K. apply (f_equal (@rev ascii)) in K. rewrite rev_involutive in K. discriminate.
             ++ intros c Hin. apply in_rev in Hin. auto.
          -- destruct (IH [] w (fun c K => match K with end) H) as [A B]. split; auto. intros c Hin.
             destruct (B c Hin) as [C [[]|D]]. simpl. auto.
      + destruct (IH (x :: cur) w) as [A B]; auto.
        { intros c [<-|K]; auto. }
        split; auto. intros c Hin. destruct (B c Hin) as [C [[<-|D]|D]]; simpl; auto. }
  intros w H. destruct (G [] w (fun c K => match K with end) H) as [A B]. split; auto.
  intros c Hc. destruct (B c Hc) as [C [[]|D]]. auto.
Qed.

Lemma remove_char_in : forall c s x, In x (remove_char c s) -> In x s /\ x <> c.
Proof.
  intros c s x H. apply filter_In in H as [H1 H2]. split; auto. intros ->. rewrite Ascii.eqb_refl in H2. discriminate.
Qed.

Lemma words_plain : forall s v, ~ In eqsign s ->
  In v (split_ws (remove_char comma (remove_char dquote s))) -> plain_var v.
Proof.
  intros s v He H. apply split_ws_words in H as [Hne H]. split; auto. intros c Hc.
  destruct (H c Hc) as [H1 H2]. apply remove_char_in in H2 as [H2 H3]. apply remove_char_in in H2 as [H2 H4].
  repeat split; auto. intros ->. auto.
Qed.

Lemma last_part_noeq : forall line s, last_part line s -> ~ In eqsign s.
Proof. intros line s ->. apply (split_on_part eqsign line). apply last_in_split. Qed.

Lemma vars_plain : forall line vars, vars_line line vars -> forall v, In v vars -> plain_var v.
Proof.
  intros line vars (_ & _ & _ & s & Hs & ->) v Hv. apply (words_plain (py_to s (-1))); auto.
  intros K. unfold py_to in K. apply in_firstn in K. exact (last_part_noeq _ _ Hs K).
Qed.

Section Plain.
  Context {F : FloatOps}.

  Lemma take_lines_in : forall k ls a b, take_lines k ls = (a, b) -> incl b ls.
  Proof.
    induction k as [|k IH]; intros ls a b E; cbn in E.
    - injection E as <- <-. apply incl_refl.
    - destruct (take_lines k (tl ls)) as [l r] eqn:Er. injection E as <- <-.
      intros x Hx. apply (IH _ _ _ Er) in Hx. destruct ls; simpl in *; auto.
  Qed.

  Lemma zone_block_rest : forall vars ls zr rest, zone_block vars ls zr rest -> incl rest ls.
  Proof.
    intros vars ls zr rest (l1 & l2 & l3 & l4 & l5 & body & n & m & lx & ly & lz & cx & cy & cz & body2 & drows & d
      & body3 & crows & E & _ & _ & _ & _ & _ & _ & T1 & _ & _ & _ & _ & _ & T2 & _ & _ & _ & T3 & _) x Hx.
    apply (take_lines_in _ _ _ _ T3) in Hx. apply (take_lines_in _ _ _ _ T2) in Hx.
    apply (take_lines_in _ _ _ _ T1) in Hx. rewrite E. simpl. auto 10.
  Qed.

  Lemma zone_block_vars : forall vars ls zr rest, zone_block vars ls zr rest -> zr_vars zr = skipn 3 vars.
  Proof.
    intros vars ls zr rest (l1 & l2 & l3 & l4 & l5 & body & n & m & lx & ly & lz & cx & cy & cz & body2 & drows & d
      & body3 & crows & E & _ & _ & _ & _ & _ & H & _). exact H.
  Qed.

  Lemma form_plain : forall vars ls evs, file_form vars ls evs -> (forall l, In l ls -> file_line l) ->
    (forall v, In v vars -> plain_var v) ->
    (forall zr, In zr (zones_of evs) -> plain_name (zr_name zr) /\ forall v, In v (zr_vars zr) -> plain_var v) /\
    (forall t, In (ETitle t) evs -> plain_name t).
  Proof.
    intros vars ls evs H. induction H as [vars|vars l ls evs Hc H IH|vars l ls s evs Ht H IH
      |vars l ls vars' evs Hv H IH|vars l ls zr rest evs Hz Hb H IH]; intros Hl Hv'.
    - split; intros ? [].
    - apply IH; auto. intros; apply Hl; simpl; auto.
    - destruct IH as [A B]; auto; [intros; apply Hl; simpl; auto|]. split; [exact A|].
      intros t [K|K]; auto. injection K as ->. apply (title_plain l); auto. apply Hl. simpl. auto.
    - apply IH; [intros; apply Hl; simpl; auto|]. apply (vars_plain _ _ Hv).
    - destruct IH as [A B]; auto.
      { intros x Hx. apply Hl. right. exact (zone_block_rest _ _ _ _ Hb x Hx). }
      split.
      + intros z [<-|K]; [|apply A; exact K]. split.
        * apply (zone_name_plain l); auto. apply Hl. simpl. auto.
        * intros v K. rewrite (zone_block_vars _ _ _ _ Hb) in K. apply Hv'.
          rewrite <- (firstn_skipn 3 vars). apply in_or_app. auto.
      + intros t [K|K]; [discriminate|auto].
  Qed.

  Lemma title_in_event : forall evs t, title_in evs = Some t -> In (ETitle t) evs.
  Proof.
    intros evs t. unfold title_in.
    assert (G : forall o, fold_left (fun t e => match e with ETitle s => Some s | EZone _ => t end) evs o = Some t ->
      o = Some t \/ In (ETitle t) evs).
    { induction evs as [|e evs IH]; intros o H; cbn in H; [auto|]. destruct (IH _ H) as [K|K]; [|simpl; auto].
      destruct e; [injection K as ->; simpl; auto|auto]. }
    intros H. destruct (G _ H) as [K|K]; [discriminate|auto].
  Qed.

  Lemma nodup_keys_dict_of : forall V (l : list (str * V)), NoDup (keys (dict_of str_dec l)).
  Proof.
    intros V l. unfold dict_of.
    assert (G : forall d, NoDup (keys d) -> NoDup (keys (fold_left (fun d kv => dset str_dec d (fst kv) (snd kv)) l d))).
    { induction l as [|[k v] l IH]; intros d H; cbn; auto. apply IH. apply NoDup_keys_dset. auto. }
    apply G. constructor.
  Qed.

  Lemma keys_dict_of_in : forall V (l : list (str * V)) k, In k (keys (dict_of str_dec l)) -> In k (map fst l).
  Proof.
    intros V l k. unfold dict_of.
    assert (G : forall d, In k (keys (fold_left (fun d kv => dset str_dec d (fst kv) (snd kv)) l d)) ->
      In k (keys d) \/ In k (map fst l)).
    { induction l as [|[k' v] l IH]; intros d H; cbn in H; auto. apply IH in H as [H|H]; [|simpl; auto].
      rewrite keys_dset in H. destruct (in_dec str_dec k' (keys d)); [auto|].
      apply in_app_or in H as [H|[->|[]]]; simpl; auto. }
    intros H. apply G in H as [[]|H]. auto.
  Qed.

  Lemma loaded_zone_face : forall zs h f, holds_zones zs h -> In f (g_faces h) ->
    exists zr row, In zr zs /\ f_data h f = dict_of str_dec (combine (zr_vars zr) row).
  Proof.
    intros zs h f (L & Eg & H) Hf. rewrite Eg in Hf. apply in_flat_map in Hf as (z & Hz & Hf).
    apply In_nth_error in Hz as (i & Hi). apply In_nth_error in Hf as (k & Hk).
    destruct (nth_error zs i) as [zr|] eqn:E.
    - destruct (H i z zr Hi E) as (_ & _ & K). destruct (K k f Hk) as (_ & row & t & _ & _ & Ed & _).
      exists zr, row. split; auto. eapply nth_error_In; eauto.
    - apply nth_error_None in E. assert (i < length (g_zones h)) by (apply nth_error_Some; congruence). lia.
  Qed.

  (** A loaded grid can be written, if it has a face and its title can be written
      (which is the case if the file has a title). *)
  Lemma loaded_names : forall merge text h h' evs, load merge text h = (Ok tt, h') ->
    file_form [] (file_lines text) evs ->
    (forall z, In z (g_zones h') -> plain_name (z_name h' z)) /\
    (forall f, In f (g_faces h') -> (forall k, In k (keys (f_data h' f)) -> plain_var k) /\ NoDup (keys (f_data h' f))) /\
    (title_in evs <> None \/ plain_name (g_name h) -> plain_name (g_name h')).
  Proof.
    intros merge text h h' evs E Hf. destruct (load_result _ _ _ _ _ E Hf) as [[] N].
    destruct (form_plain _ _ _ Hf) as [A B]; [intros l; apply file_lines_line|intros v []|].
    destruct ld_zones as (L & Eg & H). split; [|split].
    - intros z Hz. apply In_nth_error in Hz as (i & Hi).
      destruct (nth_error (zones_of evs) i) as [zr|] eqn:Ei.
      + destruct (H i z zr Hi Ei) as (-> & _). apply A. eapply nth_error_In; eauto.
      + apply nth_error_None in Ei. assert (i < length (g_zones h')) by (apply nth_error_Some; congruence). lia.
    - intros f Hfc. destruct (loaded_zone_face (zones_of evs) h' f) as (zr & row & Hzr & Ed); auto.
      { split; auto. }
      rewrite Ed. split; [|apply nodup_keys_dict_of]. intros k K. apply keys_dict_of_in in K.
      apply in_map_iff in K as ([k' v] & E1 & K). cbn in E1. subst k'. apply in_combine_l in K.
      apply (A zr Hzr). auto.
    - intros Hn. rewrite N. unfold title_after. destruct (title_in evs) as [t|] eqn:Et.
      + apply B. apply title_in_event. auto.
      + destruct Hn; [congruence|auto].
  Qed.

  Lemma loaded_writable : forall text h h' evs, load true text h = (Ok tt, h') ->
    file_form [] (file_lines text) evs -> g_faces h' <> [] -> plain_name (g_name h') -> writable h'.
  Proof.
    intros text h h' evs E Hf Hne Hn. destruct (loaded_names _ _ _ _ _ E Hf) as (A & B & _).
    split; [auto|]. split; [auto|]. split; [auto|]. unfold grid_vars.
    destruct (g_faces h') as [|f fs]; [congruence|]. apply B. left. auto.
  Qed.
End Plain.
