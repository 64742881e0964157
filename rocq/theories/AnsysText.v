(** Lemmas about texts of ANSYS files: occurrences, numbers and names of zones, columns. *)

From Coq Require Import ZArith Bool List Lia String Ascii Sorted.
From Verif Require Import Py PyLemmas TextLemmas Convert Ansys AnsysSpec.
Import ListNotations.
Open Scope list_scope.

Lemma prefixb_true : forall p s, prefixb p s = true <-> exists b, s = p ++ b.
Proof.
  induction p as [|x p IH]; intros s; cbn [prefixb].
  - split; [intros _; exists s; auto|auto].
  - destruct s as [|y s].
    + split; [discriminate|intros (b & E); discriminate].
    + rewrite andb_true_iff, Ascii.eqb_eq, IH. split.
      * intros [-> (b & ->)]. exists b. auto.
      * intros (b & E). injection E as -> ->. split; auto. exists b. auto.
Qed.

Lemma contains_occurs : forall sub s, contains sub s = true <-> occurs sub s.
Proof.
  intros sub s. induction s as [|x s IH]; cbn [contains]; rewrite orb_true_iff, prefixb_true.
  - split.
    + intros [(b & E)|E]; [|discriminate]. exists [], b. auto.
    + intros (a & b & E). left. destruct a; [|discriminate]. exists b. auto.
  - rewrite IH. split.
    + intros [(b & E)|(a & b & E)]; [exists [], b; auto|]. exists (x :: a), b. cbn. rewrite E. auto.
    + intros (a & b & E). destruct a as [|y a].
      * left. exists b. auto.
      * right. injection E as -> E. exists a, b. auto.
Qed.

Lemma contains_not : forall sub s, contains sub s = false <-> ~ occurs sub s.
Proof. intros. rewrite <- contains_occurs. destruct (contains sub s); split; intros; congruence. Qed.

(** Keys of two different characters. *)

Section Key.
  Variables k1 k2 : ascii.
  Hypothesis k12 : k1 <> k2.

  Lemma key_head : forall x a t m, contains [k1; k2] (x :: a) = false ->
    match t with [] => True | y :: _ => y <> k2 end ->
    prefixb (k1 :: k2 :: m) (x :: a ++ t) = false.
  Proof.
    intros x a t m H Ht. cbn [contains prefixb] in *. apply orb_false_iff in H. destruct H as [H _].
    destruct (Ascii.eqb_spec k1 x) as [<-|]; auto. cbn [andb] in *.
    destruct a as [|y a]; cbn [app].
    - destruct t as [|y t]; auto. destruct (Ascii.eqb_spec k2 y) as [<-|]; [congruence|auto].
    - rewrite andb_true_r in H. rewrite H. auto.
  Qed.

  Lemma contains_skip : forall a t m, contains [k1; k2] a = false ->
    match t with [] => True | y :: _ => y <> k2 end ->
    contains (k1 :: k2 :: m) (a ++ t) = contains (k1 :: k2 :: m) t.
  Proof.
    induction a as [|x a IH]; intros t m H Ht; cbn [app]; auto.
    change (contains (k1 :: k2 :: m) (x :: a ++ t)) with (prefixb (k1 :: k2 :: m) (x :: a ++ t) || contains (k1 :: k2 :: m) (a ++ t)).
    rewrite (key_head x a t m H Ht). cbn [orb]. apply IH; auto.
    cbn [contains] in H. apply orb_false_iff in H. apply H.
  Qed.

  Lemma after_key : forall a t, contains [k1; k2] a = false -> after_sub [k1; k2] (a ++ k1 :: k2 :: t) = Some t.
  Proof.
    induction a as [|x a IH]; intros t H.
    - cbn [app after_sub prefixb]. rewrite !Ascii.eqb_refl. reflexivity.
    - change (after_sub [k1; k2] ((x :: a) ++ k1 :: k2 :: t))
        with (if prefixb [k1; k2] (x :: a ++ k1 :: k2 :: t) then Some (skipn 2 (x :: a ++ k1 :: k2 :: t)) else after_sub [k1; k2] (a ++ k1 :: k2 :: t)).
      rewrite (key_head x a (k1 :: k2 :: t) [] H k12). apply IH.
      cbn [contains] in H. apply orb_false_iff in H. apply H.
  Qed.

  Lemma before_skip : forall a t, contains [k1; k2] a = false ->
    match t with [] => True | y :: _ => y <> k2 end ->
    before_sub [k1; k2] (a ++ t) = a ++ before_sub [k1; k2] t.
  Proof.
    induction a as [|x a IH]; intros t H Ht; cbn [app]; auto.
    change (before_sub [k1; k2] (x :: a ++ t)) with (if prefixb [k1; k2] (x :: a ++ t) then [] else x :: before_sub [k1; k2] (a ++ t)).
    rewrite (key_head x a t [] H Ht). rewrite IH; auto.
    cbn [contains] in H. apply orb_false_iff in H. apply H.
  Qed.

  Lemma before_head : forall t, match before_sub [k1; k2] t with [] => True | x :: _ => match t with [] => False | y :: _ => x = y end end.
  Proof. intros [|y t]; cbn; auto. destruct (_ && _); auto. Qed.

  Lemma no_key : forall a, ~ In k1 a -> contains [k1; k2] a = false.
  Proof.
    induction a as [|x a IH]; intros H; auto. cbn [contains prefixb].
    destruct (Ascii.eqb_spec k1 x) as [->|]; [exfalso; apply H; left; auto|]. cbn. apply IH. intros I. apply H. right; auto.
  Qed.

  Lemma key_app : forall a b, contains [k1; k2] a = false -> contains [k1; k2] b = false ->
    match b with [] => True | y :: _ => y <> k2 end -> contains [k1; k2] (a ++ b) = false.
  Proof. intros a b Ha Hb Hy. rewrite contains_skip; auto. Qed.
End Key.

(** A longer text occurs less often. *)
Lemma prefixb_app : forall p q s, prefixb (p ++ q) s = true -> prefixb p s = true.
Proof. intros p q s. rewrite !prefixb_true. intros (b & ->). exists (q ++ b). rewrite <- app_assoc. auto. Qed.

Lemma contains_longer : forall p q s, contains p s = false -> contains (p ++ q) s = false.
Proof.
  intros p q s. rewrite !contains_not. intros H (a & b & E). apply H. exists a, (q ++ b). rewrite E, <- app_assoc. auto.
Qed.

(** ** Digits *)

Lemma digit_runs_digits : forall d cur t, forallb is_digit d = true ->
  digit_runs_aux cur (d ++ t) = digit_runs_aux (rev d ++ cur) t.
Proof.
  induction d as [|x d IH]; intros cur t H; auto. cbn [forallb] in H. apply andb_true_iff in H. destruct H as [Hx H].
  cbn [app digit_runs_aux rev]. rewrite Hx, IH by auto. rewrite <- app_assoc. auto.
Qed.

Lemma digit_runs_skip : forall b t, Forall (fun x => is_digit x = false) b -> digit_runs_aux [] (b ++ t) = digit_runs_aux [] t.
Proof. induction b as [|x b IH]; intros t H; auto. inversion H; subst. cbn [app digit_runs_aux]. rewrite H2. auto. Qed.

Lemma digit_runs_end : forall d t, d <> [] -> forallb is_digit d = true ->
  match t with [] => True | x :: _ => is_digit x = false end ->
  digit_runs_aux [] (d ++ t) = d :: digit_runs_aux [] (tl t).
Proof.
  intros d t Hd H Ht. rewrite digit_runs_digits by auto. rewrite app_nil_r.
  assert (R : rev (rev d) = d) by apply rev_involutive.
  assert (N : rev d <> []) by (intros E; rewrite E in R; cbn in R; congruence).
  destruct t as [|x t]; cbn [digit_runs_aux tl].
  - destruct (rev d) eqn:E; [congruence|]. rewrite R. reflexivity.
  - rewrite Ht. destruct (rev d) eqn:E; [congruence|]. rewrite R. reflexivity.
Qed.

Lemma nat_str_digits : forall n, forallb is_digit (nat_str n) = true.
Proof. intros n. apply N_str_digits. Qed.

Lemma nat_str_some : forall n, nat_str n <> [].
Proof. intros n. apply N_str_nonempty. Qed.

Lemma digit_not_N : forall c, is_digit c = true -> c <> "N"%char.
Proof. intros c H ->. discriminate. Qed.
Lemma digit_not_eq : forall c, is_digit c = true -> c <> "="%char.
Proof. intros c H ->. discriminate. Qed.

Lemma digits_no_key : forall d, forallb is_digit d = true -> contains (lit "N=") d = false.
Proof.
  intros d H. apply no_key; try discriminate. intros I. rewrite forallb_forall in H. apply (digit_not_N _ (H _ I)). reflexivity.
Qed.

Lemma before_digits : forall d t, forallb is_digit d = true -> before_sub (lit "N=") (d ++ t) = d ++ before_sub (lit "N=") t.
Proof.
  induction d as [|y d IH]; intros t H; auto. cbn [forallb] in H. apply andb_true_iff in H. destruct H as [Hy H].
  change (before_sub (lit "N=") ((y :: d) ++ t)) with (if prefixb (lit "N=") (y :: d ++ t) then [] else y :: before_sub (lit "N=") (d ++ t)).
  rewrite (IH t H). cbn [lit list_ascii_of_string prefixb]. destruct (Ascii.eqb_spec "N"%char y) as [<-|]; [discriminate|]. reflexivity.
Qed.

Lemma counts_ok : forall h n e, declares h n e -> zone_counts h = Ok (n, e).
Proof.
  intros h n e (a & b & c & -> & Ha & Hb & Nb & Db & Hc).
  apply contains_not in Ha. apply contains_not in Hb. unfold zone_counts, split_sub_1.
  change (lit "N=" ++ nat_str n ++ b ++ nat_str e ++ c) with ("N"%char :: "="%char :: nat_str n ++ b ++ nat_str e ++ c).
  assert (K : "N"%char <> "="%char) by discriminate.
  rewrite (after_key _ _ K a _ Ha : after_sub (lit "N=") _ = _).
  assert (D : forall d t, forallb is_digit d = true -> d <> [] -> match d ++ t with [] => True | y :: _ => is_digit y = true end).
  { intros [|x d] t H Hn; [congruence|]. cbn in *. apply andb_true_iff in H. apply H. }
  assert (B : before_sub (lit "N=") (nat_str n ++ b ++ nat_str e ++ c) = nat_str n ++ b ++ nat_str e ++ before_sub (lit "N=") c).
  { destruct b as [|x b]; [congruence|].
    assert (E1 : forall t : str, match nat_str e ++ t with [] => True | y :: _ => y <> "="%char end).
    { intros t. pose proof (D (nat_str e) t (nat_str_digits e) (nat_str_some e)) as Q. destruct (nat_str e ++ t); auto. intros ->. discriminate. }
    (* the last number: a key may begin right after it only with its first character *)
    assert (L : before_sub (lit "N=") (nat_str e ++ c) = nat_str e ++ before_sub (lit "N=") c) by (apply before_digits; apply nat_str_digits).
    assert (M : before_sub (lit "N=") ((x :: b) ++ nat_str e ++ c) = (x :: b) ++ before_sub (lit "N=") (nat_str e ++ c)).
    { apply (before_skip _ _ (x :: b) (nat_str e ++ c) Hb). apply E1. }
    assert (F : before_sub (lit "N=") (nat_str n ++ (x :: b) ++ nat_str e ++ c) = nat_str n ++ before_sub (lit "N=") ((x :: b) ++ nat_str e ++ c)) by (apply before_digits; apply nat_str_digits).
    rewrite F, M, L. reflexivity. }
  rewrite B. cbn [rbind]. unfold digit_runs.
  destruct b as [|x b]; [congruence|].
  rewrite digit_runs_end; auto using nat_str_digits, nat_str_some; [|inversion Db; auto].
  inversion Db; subst. cbn [app tl]. rewrite digit_runs_skip by auto.
  rewrite digit_runs_end; auto using nat_str_digits, nat_str_some.
  - rewrite !nat_str_val, !Nat2Z.id. reflexivity.
  - pose proof (before_head "N"%char "="%char c) as Q. change (before_sub ["N"%char; "="%char] c) with (before_sub (lit "N=") c) in Q.
    destruct (before_sub (lit "N=") c); auto. destruct c; [contradiction|]. subst. auto.
Qed.

(** ** Names of zones *)

Lemma upto_quote : forall z name u v, ~ In dquote z -> ~ In dquote name -> z ++ dquote :: u = name ++ dquote :: v -> z = name.
Proof.
  induction z as [|x z IH]; intros [|y name] u v Hz Hn E; cbn in E; auto.
  - injection E as E _. exfalso. apply Hn. left; auto.
  - injection E as E _. exfalso. apply Hz. left; auto.
  - injection E as -> E. f_equal. apply IH with u v; auto; intros I; [apply Hz|apply Hn]; right; auto.
Qed.

Lemma mark_ok : forall h name z, names_zone h name -> ~ In dquote z ->
  contains (zone_mark z) h = true <-> z = name.
Proof.
  intros h name z (a & b & -> & Ha & Hn & Qn & Hb) Qz.
  apply contains_not in Ha. apply contains_not in Hn. apply contains_not in Hb.
  assert (K : "T"%char <> "="%char) by discriminate.
  assert (E : contains (zone_mark z) (a ++ lit "T=" ++ quoted name ++ b) = contains (zone_mark z) (lit "T=" ++ quoted name ++ b)).
  { apply (contains_skip "T"%char "="%char a (lit "T=" ++ quoted name ++ b) (dquote :: z ++ [dquote]) Ha). discriminate. }
  rewrite E. clear E.
  assert (N : contains (zone_mark z) (["="%char; dquote] ++ name ++ dquote :: b) = false).
  { assert (T : contains (lit "T=" ++ [dquote]) (["="%char; dquote] ++ name ++ dquote :: b) = false).
    { change (lit "T=" ++ [dquote]) with ("T"%char :: "="%char :: [dquote]).
      change (contains ("T"%char :: "="%char :: [dquote]) (name ++ dquote :: b) = false).
      rewrite (contains_skip "T"%char "="%char name (dquote :: b) [dquote] Hn ltac:(discriminate)).
      change (contains ("T"%char :: "="%char :: [dquote]) (dquote :: b)) with (contains (lit "T=" ++ [dquote]) b). auto. }
    change (zone_mark z) with ((lit "T=" ++ [dquote]) ++ z ++ [dquote]). apply contains_longer. exact T. }
  change (contains (zone_mark z) (lit "T=" ++ quoted name ++ b))
    with (prefixb (z ++ [dquote]) ((name ++ [dquote]) ++ b) || contains (zone_mark z) (["="%char; dquote] ++ (name ++ [dquote]) ++ b)).
  rewrite <- !app_assoc. change ([dquote] ++ b) with (dquote :: b). rewrite N, orb_false_r, prefixb_true. split.
  - intros (v & E). rewrite <- app_assoc in E. cbn [app] in E. symmetry. eapply upto_quote; eauto.
  - intros ->. exists b. rewrite <- app_assoc. auto.
Qed.

Lemma zone_title_ok : forall h name, names_zone h name -> zone_title h = Ok name.
Proof.
  intros h name (a & b & -> & Ha & Hn & Qn & Hb).
  apply contains_not in Ha. apply contains_not in Hn.
  unfold zone_title, split_sub_1.
  assert (K : "T"%char <> "="%char) by discriminate.
  assert (E : after_sub (lit "T=") (a ++ lit "T=" ++ quoted name ++ b) = Some (quoted name ++ b)) by exact (after_key _ _ K a _ Ha).
  rewrite E. cbn [rbind].
  assert (B : exists t, before_sub (lit "T=") (quoted name ++ b) = dquote :: name ++ dquote :: t).
  { exists (before_sub (lit "T=") b).
    assert (C : contains (lit "T=") (quoted name) = false).
    { change (contains (lit "T=") (name ++ [dquote]) = false). apply (key_app "T"%char "="%char name [dquote] Hn); [reflexivity|discriminate]. }
    assert (Q : quoted name ++ b = dquote :: name ++ [dquote] ++ b) by (unfold quoted; cbn [app]; rewrite <- app_assoc; reflexivity).
    rewrite Q.
    transitivity (dquote :: before_sub (lit "T=") (name ++ [dquote] ++ b)); [reflexivity|].
    apply f_equal. exact (before_skip "T"%char "="%char name ([dquote] ++ b) Hn ltac:(discriminate)). }
  destruct B as [t ->].
  assert (S : forall s, nth_error (split_on dquote (name ++ dquote :: s)) 0 = Some name).
  { intros s. clear -Qn. induction name as [|x name IH]; cbn [app split_on].
    - reflexivity.
    - destruct (Ascii.eqb_spec x dquote) as [->|]; [exfalso; apply Qn; left; auto|].
      assert (I : ~ In dquote name) by (intros I; apply Qn; right; auto). specialize (IH I).
      destruct (split_on dquote (name ++ dquote :: s)); [discriminate|]. cbn in *. congruence. }
  specialize (S t).
  change (split_on dquote (dquote :: name ++ dquote :: t)) with ([] :: split_on dquote (name ++ dquote :: t)).
  apply (py_get_nat _ _ 1 name). exact S.
Qed.

(** ** Columns *)

Lemma answers_match : forall fn sn, is_variable_names_match fn sn = true <-> answers sn fn.
Proof.
  intros fn sn. unfold is_variable_names_match, answers. destruct (Nat.eqb_spec (List.length sn) 1) as [E|E].
  - rewrite str_eqb_eq. split; [auto|]. intros [[_ H]|[H _]]; congruence.
  - rewrite contains_occurs. split; [auto|]. intros [[H _]|[_ H]]; congruence.
Qed.

Lemma answers_dec : forall sn fn, answers sn fn \/ ~ answers sn fn.
Proof. intros. rewrite <- answers_match. destruct (is_variable_names_match fn sn); auto. Qed.

Lemma name_and_mask_ok : forall snames fn,
  (snd (name_and_mask snames fn) = true /\ last_answer snames fn (fst (name_and_mask snames fn))) \/
  (name_and_mask snames fn = (fn, false) /\ forall sn, In sn snames -> ~ answers sn fn).
Proof.
  intros snames fn. unfold name_and_mask. induction snames as [|sn l IH] using rev_ind.
  - right. split; auto.
  - rewrite fold_left_app. cbn [fold_left].
    destruct (is_variable_names_match fn sn) eqn:M.
    + left. split; auto. exists l, []. split; auto. split; [apply answers_match; auto|intros x []].
    + assert (H : ~ answers sn fn) by (rewrite <- answers_match; congruence).
      destruct IH as [[E (a & b & El & Ha & Hb)]|[E H']].
      * left. split; auto. exists a, (b ++ [sn]). split; [rewrite El at 1; rewrite <- app_assoc; auto|]. split; auto.
        intros x I. apply in_app_iff in I. destruct I as [I|[<-|[]]]; auto.
      * right. split; auto. intros x I. apply in_app_iff in I. destruct I as [I|[<-|[]]]; auto.
Qed.

(** The places where a mask is set. *)
Fixpoint places (k : nat) (m : list bool) : list nat :=
  match m with [] => [] | x :: m => if x then k :: places (S k) m else places (S k) m end.

Lemma places_ge : forall m k i, In i (places k m) -> (k <= i)%nat.
Proof.
  induction m as [|x m IH]; intros k i H; cbn in H; [contradiction|].
  destruct x; [destruct H as [<-|H]; auto|]; apply IH in H; lia.
Qed.

Lemma places_sorted : forall m k, StronglySorted lt (places k m).
Proof.
  induction m as [|x m IH]; intros k; cbn; [constructor|]. destruct x; auto. constructor; auto.
  apply Forall_forall. intros i H. apply places_ge in H. lia.
Qed.

Lemma places_In : forall m k i, In i (places k m) <-> (k <= i)%nat /\ nth_error m (i - k) = Some true.
Proof.
  induction m as [|x m IH]; intros k i; cbn [places].
  - split; [intros []|]. intros [_ H]. destruct (i - k)%nat; discriminate.
  - assert (HS : In i (places (S k) m) <-> (k < i)%nat /\ nth_error m (i - S k) = Some true) by (rewrite IH; split; intros [? ?]; split; auto; lia).
    assert (N : (k < i)%nat -> nth_error (x :: m) (i - k) = nth_error m (i - S k)).
    { intros L. replace (i - k)%nat with (S (i - S k))%nat by lia. reflexivity. }
    destruct (Nat.eq_dec i k) as [->|D].
    + replace (k - k)%nat with 0%nat by lia. cbn [nth_error]. destruct x; split; intros H.
      * split; [lia|auto].
      * left; auto.
      * apply HS in H. lia.
      * destruct H; discriminate.
    + destruct x.
      * split.
        -- intros [E|H]; [congruence|]. apply HS in H. destruct H as [L H]. rewrite N by auto. split; [lia|auto].
        -- intros [L H]. right. apply HS. rewrite N in H by lia. split; [lia|auto].
      * rewrite HS. split; intros [L H].
        -- rewrite N by auto. split; [lia|auto].
        -- rewrite N in H by lia. split; [lia|auto].
Qed.

Lemma mask_pick : forall A (m : list bool) (a : list A), filter_with_mask a m = pick (places 0%nat m) a.
Proof.
  intros A m a. unfold filter_with_mask.
  assert (G : forall m k (a pre : list A), List.length pre = k -> map fst (filter (fun x => snd x) (combine a m)) = pick (places k m) (pre ++ a)).
  { clear m a. induction m as [|x m IH]; intros k a pre L; cbn [places].
    - rewrite combine_nil. reflexivity.
    - destruct a as [|y a].
      + cbn. rewrite app_nil_r. symmetry.
        assert (Q : forall l, (forall i, In i l -> (k <= i)%nat) -> pick l pre = []).
        { induction l as [|i l IHl]; intros H; auto. cbn. assert (nth_error pre i = None) as -> by (apply nth_error_None; specialize (H i (or_introl eq_refl)); lia).
          apply IHl. intros j I. apply H. right; auto. }
        apply Q. destruct x; intros i I; [destruct I as [<-|I]; auto|]; apply places_ge in I; lia.
      + specialize (IH (S k) a (pre ++ [y])). rewrite <- app_assoc in IH. cbn [app] in IH.
        assert (L' : List.length (pre ++ [y]) = S k) by (rewrite app_length; cbn; lia). specialize (IH L').
        cbn [combine filter snd]. destruct x; cbn [map fst]; rewrite IH; auto.
        cbn [pick flat_map]. assert (nth_error (pre ++ y :: a) k = Some y) as ->.
        { rewrite nth_error_app2 by lia. replace (k - List.length pre)%nat with 0%nat by lia. reflexivity. }
        reflexivity. }
  apply (G m 0%nat a []). reflexivity.
Qed.

Lemma mask_length : forall snames fnames, List.length (snd (variables_names_and_mask fnames snames)) = List.length fnames.
Proof. intros. cbn. apply map_length. Qed.

Lemma mask_columns : forall snames fnames, columns snames fnames (places 0%nat (snd (variables_names_and_mask fnames snames))).
Proof.
  intros snames fnames. split; [apply places_sorted|]. intros i. rewrite places_In, Nat.sub_0_r. cbn [variables_names_and_mask snd].
  rewrite nth_error_map. split.
  - intros [_ H]. destruct (nth_error fnames i) as [fn|] eqn:E; [|discriminate]. exists fn. split; auto. cbn in H. injection H as H.
    destruct (name_and_mask_ok snames fn) as [[_ (a & b & El & Ha & _)]|[E' _]]; [|rewrite E' in H; discriminate].
    exists (fst (name_and_mask snames fn)). split; auto. rewrite El at 2. apply in_app_iff. right; left; auto.
  - intros (fn & E & sn & I & A). split; [lia|]. rewrite E. cbn. f_equal.
    destruct (name_and_mask_ok snames fn) as [[H _]|[_ H]]; auto. exfalso. eapply H; eauto.
Qed.

Lemma pick_map : forall A B (f : A -> B) cols l, pick cols (map f l) = map f (pick cols l).
Proof.
  intros A B f cols l. unfold pick. induction cols as [|i cols IH]; auto. cbn [flat_map]. rewrite map_app, <- IH, nth_error_map.
  destruct (nth_error l i); auto.
Qed.

Lemma names_ok : forall snames fnames,
  let cols := places 0%nat (snd (variables_names_and_mask fnames snames)) in
  Forall2 (last_answer snames) (pick cols fnames)
    (filter_with_mask (fst (variables_names_and_mask fnames snames)) (snd (variables_names_and_mask fnames snames))).
Proof.
  intros snames fnames cols. rewrite mask_pick. fold cols. cbn [variables_names_and_mask fst]. rewrite pick_map.
  assert (H : forall i, In i cols -> exists fn, nth_error fnames i = Some fn /\ exists sn, In sn snames /\ answers sn fn).
  { intros i. apply (mask_columns snames fnames). }
  clearbody cols. induction cols as [|i cols IH]; [constructor|]. cbn [pick flat_map].
  destruct (H i (or_introl eq_refl)) as (fn & E & sn & I & A). rewrite E. cbn [app map]. constructor.
  - destruct (name_and_mask_ok snames fn) as [[_ L]|[_ N]]; auto. exfalso. eapply N; eauto.
  - apply IH. intros j J. apply H. right; auto.
Qed.

(** ** The line of variables *)

Lemma split_on_cons : forall c s t, ~ In c s -> split_on c (s ++ c :: t) = s :: split_on c t.
Proof.
  intros c s t H. induction s as [|x s IH]; cbn [app split_on].
  - rewrite Ascii.eqb_refl. reflexivity.
  - destruct (Ascii.eqb_spec x c) as [->|]; [exfalso; apply H; left; auto|].
    rewrite IH by (intros I; apply H; right; auto). reflexivity.
Qed.

Lemma split_on_join : forall c l, l <> [] -> Forall (fun s => ~ In c s) l -> split_on c (join [c] l) = l.
Proof.
  intros c l. induction l as [|s l IH]; intros Hn H; [congruence|]. inversion H; subst.
  destruct l as [|s' l].
  - cbn. apply split_on_none. auto.
  - rewrite join_cons. change ([c] ++ join [c] (s' :: l)) with (c :: join [c] (s' :: l)). rewrite split_on_cons by auto. rewrite IH; auto. discriminate.
Qed.

Lemma remove_char_join : forall c d l, c <> d -> remove_char c (join [d] l) = join [d] (map (remove_char c) l).
Proof.
  intros c d l Hd. induction l as [|s [|s' l] IH]; auto.
  rewrite join_cons, !remove_char_app. cbn [map]. rewrite join_cons. cbn [map] in IH. rewrite IH. f_equal. f_equal.
  apply remove_char_none. intros [E|[]]. congruence.
Qed.

Lemma remove_char_In : forall c x s, In x (remove_char c s) -> In x s.
Proof. intros c x s H. unfold remove_char in H. apply filter_In in H. apply H. Qed.

Lemma join_not_In : forall x sep l, ~ In x sep -> Forall (fun s => ~ In x s) l -> ~ In x (join sep l).
Proof.
  intros x sep l Hs. induction l as [|s [|s' l] IH]; intros H.
  - intros [].
  - inversion H; auto.
  - rewrite join_cons. inversion H; subst. rewrite !in_app_iff. intros [I|[I|I]]; auto. apply IH; auto.
Qed.

Lemma header_names_ok : forall l raws, variables_line l raws -> header_names l = Ok (map (remove_char dquote) raws).
Proof.
  intros l raws (_ & _ & a & c & -> & Hn & Ha & Hr & Hc). unfold header_names.
  assert (Hj : ~ In eqsign (join [comma] raws)).
  { apply join_not_In; [intros [E|[]]; discriminate|]. eapply Forall_impl; [|exact Hr]. intros s [_ H]; auto. }
  change ([eqsign] ++ join [comma] raws ++ c) with (eqsign :: join [comma] raws ++ c).
  rewrite split_on_cons by auto.
  assert (S : exists r, split_on eqsign (join [comma] raws ++ c) = join [comma] raws :: r).
  { destruct c as [|x c].
    - rewrite app_nil_r. exists []. apply split_on_none. auto.
    - subst x. exists (split_on eqsign c). apply split_on_cons. auto. }
  destruct S as [r ->].
  assert (G : @py_get str (a :: join [comma] raws :: r) 1%Z = Ok (join [comma] raws)) by (apply (py_get_nat _ _ 1%nat); reflexivity).
  rewrite G. cbn [rbind]. f_equal. rewrite remove_char_join by discriminate. apply split_on_join.
  - destruct raws; [congruence|discriminate].
  - apply Forall_forall. intros s I. apply in_map_iff in I. destruct I as (r0 & <- & I). rewrite Forall_forall in Hr.
    intros J. apply remove_char_In in J. destruct (Hr r0 I) as [Hk _]. auto.
Qed.
