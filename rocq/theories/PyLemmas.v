(** Facts about the Python prelude. *)

From Coq Require Import ZArith NArith Ascii String Bool Lia List Permutation.
From Verif Require Import Py.
Import ListNotations.
Open Scope list_scope.

Ltac inv H := inversion H; subst; clear H.

(* ------------------------------------------------------------------ *)
(** * Results *)

Lemma rbind_ok : forall A B (r : res A) (k : A -> res B) b,
  rbind r k = Ok b -> exists a, r = Ok a /\ k a = Ok b.
Proof. intros A B [a|e] k b H; simpl in H; [eauto | discriminate]. Qed.

Lemma rmap_ok_length : forall A B (f : A -> res B) l l',
  rmap f l = Ok l' -> length l' = length l.
Proof.
  induction l as [|x l IH]; simpl; intros l' H.
  - inv H; reflexivity.
  - apply rbind_ok in H as (y & Hy & H). apply rbind_ok in H as (ys & Hys & H).
    inv H. simpl. f_equal. auto.
Qed.

Lemma rmap_ok_Forall2 : forall A B (f : A -> res B) l l',
  rmap f l = Ok l' <-> Forall2 (fun x y => f x = Ok y) l l'.
Proof.
  induction l as [|x l IH]; simpl; intros l'; split; intro H.
  - inv H; constructor.
  - inv H; reflexivity.
  - apply rbind_ok in H as (y & Hy & H). apply rbind_ok in H as (ys & Hys & H).
    inv H. constructor; auto. apply IH; auto.
  - inv H. rewrite H2; simpl. apply IH in H4. rewrite H4; reflexivity.
Qed.

Lemma rmap_map : forall A B (f : A -> res B) (g : A -> B) l,
  (forall x, In x l -> f x = Ok (g x)) -> rmap f l = Ok (map g l).
Proof.
  induction l as [|x l IH]; simpl; intros H; auto.
  rewrite H by auto. simpl. rewrite IH by auto. reflexivity.
Qed.

(* ------------------------------------------------------------------ *)
(** * Indexing *)

Lemma py_index_nonneg : forall len i, (0 <= i < Z.of_nat len)%Z ->
  py_index len i = Some (Z.to_nat i).
Proof.
  intros len i H. unfold py_index.
  destruct (0 <=? i)%Z eqn:E; [|lia].
  destruct (i <? Z.of_nat len)%Z eqn:E2; [reflexivity|lia].
Qed.

Lemma py_index_lt : forall len i k, py_index len i = Some k -> (k < len)%nat.
Proof.
  intros len i k H. unfold py_index in H.
  destruct (0 <=? i)%Z eqn:E.
  - destruct (i <? Z.of_nat len)%Z eqn:E2; inv H. lia.
  - destruct (0 <=? Z.of_nat len + i)%Z eqn:E2; inv H. lia.
Qed.

Lemma py_get_nat : forall A (l : list A) i x,
  nth_error l i = Some x -> py_get l (Z.of_nat i) = Ok x.
Proof.
  intros A l i x H. unfold py_get.
  assert (i < length l)%nat by (apply nth_error_Some; congruence).
  rewrite py_index_nonneg by lia. rewrite Nat2Z.id, H. reflexivity.
Qed.

Lemma py_get_In : forall A (l : list A) i x, py_get l i = Ok x -> In x l.
Proof.
  intros A l i x H. unfold py_get in H.
  destruct (py_index (length l) i); [|discriminate].
  destruct (nth_error l n) eqn:E; inv H. eapply nth_error_In; eauto.
Qed.

Lemma list_set_length : forall A (l : list A) k v, length (list_set l k v) = length l.
Proof. induction l; intros [|k] v; simpl; auto. Qed.

Lemma nth_error_list_set : forall A (l : list A) k v j,
  nth_error (list_set l k v) j =
  if Nat.eq_dec j k then (if (k <? length l)%nat then Some v else None) else nth_error l j.
Proof.
  induction l as [|a l IH]; intros [|k] v [|j]; simpl; auto.
  - destruct (Nat.eq_dec _ _); auto.
  - rewrite IH. destruct (Nat.eq_dec j k); destruct (Nat.eq_dec (S j) (S k)); try lia; auto.
Qed.

(* ------------------------------------------------------------------ *)
(** * Slices *)

Lemma py_bound_pos : forall len i, (0 <= i)%Z -> py_bound len i = Nat.min (Z.to_nat i) len.
Proof. intros len i H. unfold py_bound. destruct (0 <=? i)%Z eqn:E; [auto|lia]. Qed.

Lemma py_bound_neg : forall len i, (i < 0)%Z -> py_bound len i = (len - Z.to_nat (- i))%nat.
Proof. intros len i H. unfold py_bound. destruct (0 <=? i)%Z eqn:E; lia. Qed.

Lemma firstn_app_exact : forall A (a b : list A), firstn (length a) (a ++ b) = a.
Proof. intros. rewrite firstn_app, Nat.sub_diag, firstn_all, firstn_O, app_nil_r; auto. Qed.

Lemma skipn_app_exact : forall A (a b : list A), skipn (length a) (a ++ b) = b.
Proof. intros. rewrite skipn_app, Nat.sub_diag, skipn_all; auto. Qed.

Lemma py_to_app : forall A (a b : list A) j, (0 < length b)%nat ->
  j = (- Z.of_nat (length b))%Z -> py_to (a ++ b) j = a.
Proof.
  intros A a b j Hb ->. unfold py_to. rewrite py_bound_neg by lia.
  rewrite app_length. replace (length a + length b - Z.to_nat (- - Z.of_nat (length b)))%nat
    with (length a) by lia. apply firstn_app_exact.
Qed.

Lemma py_from_app : forall A (a b : list A) j, (0 < length b)%nat ->
  j = (- Z.of_nat (length b))%Z -> py_from (a ++ b) j = b.
Proof.
  intros A a b j Hb ->. unfold py_from. rewrite py_bound_neg by lia.
  rewrite app_length. replace (length a + length b - Z.to_nat (- - Z.of_nat (length b)))%nat
    with (length a) by lia. apply skipn_app_exact.
Qed.

Lemma py_slice_mid : forall A (a b c : list A) i j, (0 < length c)%nat ->
  (0 < length b + length c)%nat ->
  i = (- Z.of_nat (length b + length c))%Z -> j = (- Z.of_nat (length c))%Z ->
  py_slice (a ++ b ++ c) i j = b.
Proof.
  intros A a b c i j Hc Hb -> ->. unfold py_slice.
  rewrite !py_bound_neg by lia. rewrite !app_length.
  replace (length a + (length b + length c) - Z.to_nat (- - Z.of_nat (length b + length c)))%nat
    with (length a) by lia.
  replace (length a + (length b + length c) - Z.to_nat (- - Z.of_nat (length c)) - length a)%nat
    with (length b) by lia.
  rewrite skipn_app_exact. apply firstn_app_exact.
Qed.

(* s[1:-2] *)
Lemma py_slice_inner : forall A (a b c : list A) i j, (0 < length c)%nat ->
  i = Z.of_nat (length a) -> j = (- Z.of_nat (length c))%Z ->
  py_slice (a ++ b ++ c) i j = b.
Proof.
  intros A a b c i j Hc -> ->. unfold py_slice.
  rewrite (py_bound_pos _ (Z.of_nat (length a))) by lia.
  rewrite (py_bound_neg _ (- Z.of_nat (length c))) by lia. rewrite !app_length.
  replace (Nat.min (Z.to_nat (Z.of_nat (length a))) (length a + (length b + length c)))
    with (length a) by lia.
  replace (length a + (length b + length c) - Z.to_nat (- - Z.of_nat (length c)) - length a)%nat
    with (length b) by lia.
  rewrite skipn_app_exact. apply firstn_app_exact.
Qed.

(* ------------------------------------------------------------------ *)
(** * remove / index / dictionaries *)

Lemma remove1_split : forall A (eqb : A -> bool) l l',
  remove1 eqb l = Some l' ->
  exists a x b, l = a ++ x :: b /\ l' = a ++ b /\ eqb x = true /\ forallb (fun y => negb (eqb y)) a = true.
Proof.
  induction l as [|x l IH]; simpl; intros l' H; [discriminate|].
  destruct (eqb x) eqn:E.
  - inv H. exists [], x, l'. auto.
  - destruct (remove1 eqb l) eqn:E2; [|discriminate]. inv H.
    destruct (IH _ eq_refl) as (a & y & b & -> & -> & Hy & Ha).
    exists (x :: a), y, b. simpl. rewrite E; auto.
Qed.

Lemma remove1_None : forall A (eqb : A -> bool) l,
  remove1 eqb l = None <-> existsb eqb l = false.
Proof.
  induction l as [|x l IH]; simpl; [tauto|].
  destruct (eqb x); simpl; [split; discriminate|].
  destruct (remove1 eqb l); destruct (existsb eqb l); split; intros; try congruence; exfalso; destruct IH as [IH1 IH2]; (discriminate (IH1 eq_refl) || discriminate (IH2 eq_refl)).
Qed.

Lemma index_of_Some : forall A (eqb : A -> bool) l k,
  index_of eqb l = Some k -> exists x, nth_error l k = Some x /\ eqb x = true.
Proof.
  induction l as [|x l IH]; simpl; intros k H; [discriminate|].
  destruct (eqb x) eqn:E; [inv H; exists x; auto|].
  destruct (index_of eqb l); inv H. apply IH; auto.
Qed.

Lemma index_of_None : forall A (eqb : A -> bool) l,
  index_of eqb l = None <-> existsb eqb l = false.
Proof.
  induction l as [|x l IH]; simpl; [tauto|].
  destruct (eqb x); simpl; [split; discriminate|].
  destruct (index_of eqb l); destruct (existsb eqb l); split; intros; try congruence; exfalso; destruct IH as [IH1 IH2]; (discriminate (IH1 eq_refl) || discriminate (IH2 eq_refl)).
Qed.

(** Index of an identifier in a duplicate-free list. *)
Lemma index_of_nodup : forall l k x, NoDup l -> nth_error l k = Some x ->
  index_of (Nat.eqb x) l = Some k.
Proof.
  induction l as [|y l IH]; intros [|k] x Hn H; simpl in *; try discriminate.
  - inv H. rewrite Nat.eqb_refl. auto.
  - inv Hn. destruct (Nat.eqb_spec x y).
    + subst. exfalso. apply H2. eapply nth_error_In; eauto.
    + rewrite (IH k x); auto.
Qed.

Section Dict.
  Context {K V : Type} (dec : forall x y : K, {x = y} + {x <> y}).

  Lemma dget_dset : forall (d : dict K V) k v k',
    dget dec (dset dec d k v) k' = if dec k' k then Some v else dget dec d k'.
  Proof.
    induction d as [|[a b] d IH]; simpl; intros k v k'.
    - destruct (dec k' k); auto.
    - destruct (dec k a); simpl.
      + subst. destruct (dec k' a); auto.
      + rewrite IH. destruct (dec k' a); auto. destruct (dec k' k); congruence.
  Qed.

  Lemma dget_In : forall (d : dict K V) k v, dget dec d k = Some v -> In (k, v) d.
  Proof.
    induction d as [|[a b] d IH]; simpl; intros k v H; [discriminate|].
    destruct (dec k a); [inv H; auto|auto].
  Qed.

  Lemma dget_None : forall (d : dict K V) k, dget dec d k = None <-> ~ In k (keys d).
  Proof.
    induction d as [|[a b] d IH]; simpl; intros k; [tauto|].
    destruct (dec k a).
    - subst. split; [discriminate| intros H; exfalso; auto].
    - rewrite IH. split; intros H; [intros [?|?]; [congruence|auto] | auto].
  Qed.

  Lemma keys_dset : forall (d : dict K V) k v,
    keys (dset dec d k v) = if in_dec dec k (keys d) then keys d else keys d ++ [k].
  Proof.
    unfold keys. induction d as [|[a b] d IH]; simpl; intros k v; auto.
    destruct (dec k a) as [->|Hn]; simpl.
    - destruct (dec a a); [reflexivity|congruence].
    - rewrite IH. destruct (dec a k); [congruence|].
      destruct (in_dec dec k (map fst d)); auto.
  Qed.

  Lemma NoDup_keys_dset : forall (d : dict K V) k v,
    NoDup (keys d) -> NoDup (keys (dset dec d k v)).
  Proof.
    intros d k v H. rewrite keys_dset. destruct (in_dec dec k (keys d)); auto.
    apply Permutation_NoDup with (l := k :: keys d).
    - change (k :: keys d) with ([k] ++ keys d). apply Permutation_app_comm.
    - constructor; auto.
  Qed.
End Dict.

(* ------------------------------------------------------------------ *)
(** * Strings and numbers *)

Lemma str_eqb_eq : forall a b, str_eqb a b = true <-> a = b.
Proof. intros a b. unfold str_eqb. destruct (str_dec a b); split; congruence. Qed.

Lemma str_eqb_refl : forall a, str_eqb a a = true.
Proof. intros. apply str_eqb_eq; auto. Qed.

Lemma ascii_of_N_small : forall n, (n < 256)%N -> N_of_ascii (ascii_of_N n) = n.
Proof. intros. apply N_ascii_embedding; auto. Qed.

Lemma digit_chr_digit : forall d, (d < 10)%N -> is_digit (digit_chr d) = true.
Proof.
  intros d H. unfold is_digit, digit_chr, nat_of_ascii.
  rewrite ascii_of_N_small by lia.
  apply andb_true_intro; split; apply Nat.leb_le; lia.
Qed.

Lemma digit_chr_val : forall d, (d < 10)%N -> digit_val (digit_chr d) = Z.of_N d.
Proof.
  intros d H. unfold digit_val, digit_chr, nat_of_ascii.
  rewrite ascii_of_N_small by lia. lia.
Qed.

Lemma digits_forall : forall fuel n, forallb is_digit (digits fuel n) = true.
Proof.
  induction fuel as [|k IH]; intros n; cbn [digits]; auto.
  destruct (N.ltb_spec n 10).
  - cbn [forallb]. rewrite digit_chr_digit by lia. auto.
  - rewrite forallb_app, IH. cbn [forallb]. rewrite digit_chr_digit.
    + auto.
    + apply N.mod_lt. lia.
Qed.

Lemma digits_nonempty : forall fuel n, digits (S fuel) n <> [].
Proof.
  intros fuel n. cbn [digits]. destruct (n <? 10)%N; [discriminate|].
  intro H. apply app_eq_nil in H as [_ H]. discriminate.
Qed.

Lemma digits_val_app : forall a b acc,
  fold_left (fun acc c => (acc * 10 + digit_val c)%Z) (a ++ b) acc =
  fold_left (fun acc c => (acc * 10 + digit_val c)%Z) b
    (fold_left (fun acc c => (acc * 10 + digit_val c)%Z) a acc).
Proof. intros. apply fold_left_app. Qed.

Lemma digits_digits_val : forall fuel n, (N.to_nat n < 2 ^ fuel)%nat ->
  (n = 0 -> (0 < fuel)%nat)%N ->
  digits_val (digits fuel n) = Z.of_N n.
Proof.
  induction fuel as [|k IH]; intros n H H0.
  - cbn in H. assert (n = 0%N) by lia. specialize (H0 H1). lia.
  - cbn [digits]. destruct (N.ltb_spec n 10).
    + unfold digits_val. cbn [fold_left]. rewrite digit_chr_val; lia.
    + unfold digits_val in *. rewrite digits_val_app. rewrite IH.
      * cbn [fold_left]. rewrite digit_chr_val by (apply N.mod_lt; lia).
        rewrite N2Z.inj_div, N2Z.inj_mod by lia. pose proof (Z.div_mod (Z.of_N n) 10). lia.
      * rewrite Nat.pow_succ_r' in H.
        assert (N.to_nat (n / 10) <= N.to_nat n / 2)%nat.
        { rewrite N2Nat.inj_div. apply Nat.div_le_compat_l. cbn. lia. }
        assert (N.to_nat n / 2 < 2 ^ k)%nat.
        { apply Nat.div_lt_upper_bound; lia. }
        lia.
      * intros Hz. exfalso. apply N.div_small_iff in Hz; lia.
Qed.

Lemma size_nat_bound : forall n, (N.to_nat n < 2 ^ N.size_nat n)%nat.
Proof.
  intros [|p]; [cbn; lia|]. cbn [N.size_nat].
  change (N.to_nat (N.pos p)) with (Pos.to_nat p).
  induction p as [p IH|p IH|]; cbn [Pos.size_nat].
  - rewrite Pos2Nat.inj_xI, Nat.pow_succ_r'. lia.
  - rewrite Pos2Nat.inj_xO, Nat.pow_succ_r'. lia.
  - cbn. lia.
Qed.

Lemma N_str_val : forall n, digits_val (N_str n) = Z.of_N n.
Proof.
  intros n. unfold N_str. apply digits_digits_val.
  - pose proof (size_nat_bound n). rewrite Nat.pow_succ_r'. lia.
  - lia.
Qed.

Lemma N_str_nonempty : forall n, N_str n <> [].
Proof. intros. apply digits_nonempty. Qed.

Lemma N_str_digits : forall n, forallb is_digit (N_str n) = true.
Proof. intros. apply digits_forall. Qed.

Lemma all_digits_N_str : forall n, all_digits (N_str n) = true.
Proof.
  intros. unfold all_digits. pose proof (N_str_nonempty n). pose proof (N_str_digits n).
  destruct (N_str n); congruence.
Qed.

Lemma nat_str_val : forall n, digits_val (nat_str n) = Z.of_nat n.
Proof. intros. unfold nat_str. rewrite N_str_val. lia. Qed.

Lemma is_digit_not_space : forall c, is_digit c = true -> is_space c = false.
Proof.
  intros c H. unfold is_digit in H. apply andb_prop in H as [H1 H2].
  apply Nat.leb_le in H1, H2. unfold is_space.
  assert (E : forall b, ((nat_of_ascii c <=? 13) = b -> b = false)%nat) by
    (intros; subst; apply Nat.leb_gt; lia).
  rewrite (E _ eq_refl).
  replace (nat_of_ascii c <=? 32)%nat with false by (symmetry; apply Nat.leb_gt; lia).
  replace (nat_of_ascii c =? 133)%nat with false by (symmetry; apply Nat.eqb_neq; lia).
  replace (nat_of_ascii c =? 160)%nat with false by (symmetry; apply Nat.eqb_neq; lia).
  rewrite !andb_false_r. auto.
Qed.

Lemma lstrip_spaces : forall a b, forallb is_space a = true -> lstrip (a ++ b) = lstrip b.
Proof.
  induction a as [|x a IH]; simpl; intros b H; auto.
  apply andb_prop in H as [-> H]. auto.
Qed.

Lemma lstrip_nonspace : forall c s, is_space c = false -> lstrip (c :: s) = c :: s.
Proof. intros c s H. simpl. rewrite H. auto. Qed.

Lemma lstrip_all : forall a, forallb is_space a = true -> lstrip a = [].
Proof.
  induction a as [|x a IH]; simpl; intros H; auto.
  apply andb_prop in H as [-> H]. auto.
Qed.

Lemma forallb_rev : forall A (f : A -> bool) l, forallb f (rev l) = forallb f l.
Proof.
  induction l as [|x l IH]; simpl; auto. rewrite forallb_app, IH. simpl.
  rewrite andb_true_r. apply andb_comm.
Qed.

(** Stripping a word (first and last characters not blank) with blanks around. *)
Lemma strip_word : forall a w b,
  forallb is_space a = true -> forallb is_space b = true ->
  w <> [] -> forallb (fun c => negb (is_space c)) w = true ->
  strip (a ++ w ++ b) = w.
Proof.
  intros a w b Ha Hb Hw Hf. unfold strip.
  rewrite lstrip_spaces by auto.
  destruct w as [|c w]; [congruence|].
  simpl in Hf. apply andb_prop in Hf as [Hc Hf].
  simpl app. rewrite lstrip_nonspace by (destruct (is_space c); auto; discriminate).
  change (c :: w ++ b) with ((c :: w) ++ b). rewrite rev_app_distr.
  rewrite lstrip_spaces by (rewrite forallb_rev; auto).
  assert (Hl : lstrip (rev (c :: w)) = rev (c :: w)).
  { assert (Hall : forallb (fun c => negb (is_space c)) (rev (c :: w)) = true).
    { rewrite forallb_rev. simpl. rewrite Hc, Hf. auto. }
    destruct (rev (c :: w)) as [|d r]; auto. simpl in Hall.
    apply andb_prop in Hall as [Hd _]. simpl. destruct (is_space d); auto; discriminate. }
  rewrite Hl, rev_involutive. auto.
Qed.

Lemma digits_nonspace : forall s, forallb is_digit s = true ->
  forallb (fun c => negb (is_space c)) s = true.
Proof.
  intros s H. rewrite forallb_forall in *. intros c Hc.
  rewrite is_digit_not_space; auto.
Qed.

Lemma py_int_digits : forall a s b, forallb is_space a = true -> forallb is_space b = true ->
  all_digits s = true -> py_int (a ++ s ++ b) = Ok (digits_val s).
Proof.
  intros a s b Ha Hb Hs. unfold py_int.
  assert (Hd : s <> [] /\ forallb is_digit s = true).
  { unfold all_digits in Hs. destruct s; [discriminate|]. split; [congruence|auto]. }
  destruct Hd as [Hne Hd].
  rewrite strip_word; auto using digits_nonspace.
  destruct s as [|c s]; [congruence|].
  assert (Hc : is_digit c = true) by (simpl in Hd; apply andb_prop in Hd; tauto).
  destruct (Ascii.eqb_spec c "-"%char); [subst; discriminate|].
  destruct (Ascii.eqb_spec c "+"%char); [subst; discriminate|].
  rewrite Hs. auto.
Qed.

Lemma py_int_nat_str : forall n, py_int (nat_str n) = Ok (Z.of_nat n).
Proof.
  intros n. pose proof (py_int_digits [] (nat_str n) [] eq_refl eq_refl (all_digits_N_str _)).
  simpl in H. rewrite app_nil_r in H. rewrite H, nat_str_val. auto.
Qed.

Lemma digits_val_zeros : forall k s, digits_val (repeat "0"%char k ++ s) = digits_val s.
Proof.
  intros k s. unfold digits_val. rewrite digits_val_app.
  assert (E : fold_left (fun acc c => (acc * 10 + digit_val c)%Z) (repeat "0"%char k) 0%Z = 0%Z).
  { induction k as [|k IH]; auto. }
  rewrite E. auto.
Qed.

Lemma digits_length_le : forall fuel n k, (n < 10 ^ N.of_nat k)%N -> (1 <= k)%nat ->
  (length (digits fuel n) <= k)%nat.
Proof.
  induction fuel as [|f IH]; intros n k H Hk; cbn [digits]; [simpl; lia|].
  destruct (N.ltb_spec n 10); [simpl; lia|].
  rewrite app_length. cbn [length].
  destruct k as [|[|k]]; [lia| |].
  - change (N.of_nat 1) with 1%N in H. rewrite N.pow_1_r in H. lia.
  - specialize (IH (n / 10)%N (S k)). assert (n / 10 < 10 ^ N.of_nat (S k))%N.
    { apply N.div_lt_upper_bound; [lia|]. rewrite <- N.pow_succ_r'.
      replace (N.succ (N.of_nat (S k))) with (N.of_nat (S (S k))) by lia. auto. }
    specialize (IH H1). lia.
Qed.

Lemma digits_length_ge : forall fuel n k, (10 ^ N.of_nat k <= n)%N ->
  (N.to_nat n < 2 ^ fuel)%nat ->
  (k < length (digits fuel n))%nat.
Proof.
  induction fuel as [|f IH]; intros n k H Hb.
  - cbn in Hb. assert (n = 0%N) by lia. subst.
    pose proof (N.pow_nonzero 10 (N.of_nat k)). lia.
  - cbn [digits]. destruct (N.ltb_spec n 10).
    + destruct k as [|k]; [simpl; lia|].
      replace (N.of_nat (S k)) with (N.succ (N.of_nat k)) in H by lia.
      rewrite N.pow_succ_r' in H. pose proof (N.pow_nonzero 10 (N.of_nat k)). lia.
    + rewrite app_length. cbn [length].
      destruct k as [|k]; [lia|].
      assert (10 ^ N.of_nat k <= n / 10)%N.
      { apply N.div_le_lower_bound; [lia|]. rewrite <- N.pow_succ_r'.
        replace (N.succ (N.of_nat k)) with (N.of_nat (S k)) by lia. auto. }
      assert (N.to_nat (n / 10) < 2 ^ f)%nat.
      { rewrite Nat.pow_succ_r' in Hb.
        assert (N.to_nat (n / 10) <= N.to_nat n / 2)%nat.
        { rewrite N2Nat.inj_div. apply Nat.div_le_compat_l. cbn. lia. }
        assert (N.to_nat n / 2 < 2 ^ f)%nat by (apply Nat.div_lt_upper_bound; lia). lia. }
      specialize (IH _ _ H1 H2). lia.
Qed.
