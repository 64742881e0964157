(** Lemmas about text: lines of a file, words of a line, search for KEY=. *)

From Coq Require Import ZArith NArith Ascii String Bool Lia List.
From Verif Require Import Py PyLemmas.
Import ListNotations.
Open Scope list_scope.
Open Scope nat_scope.

(* ------------------------------------------------------------------ *)
(** * Lines *)

(** A complete line. *)
Definition whole_line (l : str) : Prop :=
  exists s, l = s ++ [nl] /\ forall c, In c s -> c <> nl /\ c <> cr.

Lemma ascii_eqb_neq : forall a b, a <> b -> Ascii.eqb a b = false.
Proof. intros a b H. destruct (Ascii.eqb_spec a b); congruence. Qed.

Lemma universal_nl_id : forall s, (forall c, In c s -> c <> cr) -> universal_nl s = s.
Proof.
  induction s as [|c s IH]; intros H; [reflexivity|]. cbn [universal_nl].
  rewrite ascii_eqb_neq by (apply H; simpl; auto). f_equal. apply IH. intros; apply H; simpl; auto.
Qed.

Lemma lines_whole : forall s rest, (forall c, In c s -> c <> nl) ->
  lines (s ++ nl :: rest) = (s ++ [nl]) :: lines rest.
Proof.
  induction s as [|c s IH]; intros rest H; cbn [lines app].
  - rewrite Ascii.eqb_refl. reflexivity.
  - rewrite ascii_eqb_neq by (apply H; simpl; auto).
    rewrite IH by (intros; apply H; simpl; auto). reflexivity.
Qed.

Lemma lines_concat : forall ls, (forall l, In l ls -> whole_line l) -> lines (concat ls) = ls.
Proof.
  induction ls as [|l ls IH]; intros H; [reflexivity|]. cbn [concat].
  destruct (H l) as (s & -> & Hs); [simpl; auto|]. rewrite <- app_assoc. cbn [app].
  rewrite lines_whole by (intros c Hc; apply Hs; auto). f_equal. apply IH. intros; apply H; simpl; auto.
Qed.

Lemma nl_not_cr : nl <> cr.
Proof. discriminate. Qed.

Lemma file_lines_concat : forall ls, (forall l, In l ls -> whole_line l) -> file_lines (concat ls) = ls.
Proof.
  intros ls H. unfold file_lines. rewrite universal_nl_id; [apply lines_concat; auto|].
  intros c Hc. apply in_concat in Hc as (l & Hl & Hc). destruct (H l Hl) as (s & -> & Hs).
  apply in_app_iff in Hc as [Hc|[<-|[]]]; [apply Hs; auto|exact nl_not_cr].
Qed.

(* ------------------------------------------------------------------ *)
(** * Words *)

(** A word: not empty, without blanks. *)
Definition word (w : str) : Prop := w <> [] /\ forall c, In c w -> is_space c = false.

Lemma split_ws_aux_word : forall w cur s, (forall c, In c w -> is_space c = false) ->
  split_ws_aux cur (w ++ s) = split_ws_aux (rev w ++ cur) s.
Proof.
  induction w as [|c w IH]; intros cur s H; [reflexivity|]. cbn [app split_ws_aux rev].
  rewrite (H c) by (simpl; auto). rewrite IH by (intros; apply H; simpl; auto).
  rewrite <- app_assoc. reflexivity.
Qed.

Lemma split_ws_spaces : forall s, forallb is_space s = true -> split_ws s = [].
Proof.
  unfold split_ws. induction s as [|c s IH]; intros H; [reflexivity|]. cbn in *.
  apply andb_true_iff in H as [-> H]. auto.
Qed.

Lemma split_ws_word : forall w c s, word w -> is_space c = true ->
  split_ws (w ++ c :: s) = w :: split_ws s.
Proof.
  intros w c s [Hne Hw] Hc. unfold split_ws. rewrite split_ws_aux_word by auto. rewrite app_nil_r.
  cbn [split_ws_aux]. rewrite Hc. destruct (rev w) eqn:E.
  - exfalso. apply Hne. rewrite <- (rev_involutive w), E. reflexivity.
  - rewrite <- E, rev_involutive. reflexivity.
Qed.

Lemma split_ws_last : forall w, word w -> split_ws w = [w].
Proof.
  intros w [Hne Hw]. unfold split_ws. rewrite <- (app_nil_r w) at 1. rewrite split_ws_aux_word by auto.
  rewrite app_nil_r. cbn [split_ws_aux]. destruct (rev w) eqn:E.
  - exfalso. apply Hne. rewrite <- (rev_involutive w), E. reflexivity.
  - rewrite <- E, rev_involutive. reflexivity.
Qed.

Lemma join_cons : forall sep x y r, join sep (x :: y :: r) = x ++ sep ++ join sep (y :: r).
Proof. reflexivity. Qed.

Lemma split_ws_join : forall ws t, (forall w, In w ws -> word w) -> forallb is_space t = true ->
  split_ws (join [sp] ws ++ t) = ws.
Proof.
  induction ws as [|w ws IH]; intros t H Ht; [apply split_ws_spaces; auto|].
  destruct ws as [|w2 ws].
  - cbn [join]. destruct t as [|c t].
    + rewrite app_nil_r. apply split_ws_last. apply H. simpl. auto.
    + cbn in Ht. apply andb_true_iff in Ht as [Hc Ht]. rewrite split_ws_word; auto.
      * f_equal. apply split_ws_spaces. auto.
      * apply H. simpl. auto.
  - rewrite join_cons, <- !app_assoc. cbn [app]. rewrite split_ws_word; auto.
    + f_equal. apply IH; auto. intros; apply H; simpl in *; auto.
    + apply H. simpl. auto.
Qed.

Lemma word_digits : forall n, word (nat_str n).
Proof.
  intros n. split; [apply N_str_nonempty|]. intros c Hc.
  pose proof (N_str_digits (N.of_nat n)) as H. rewrite forallb_forall in H.
  apply is_digit_not_space. apply H. auto.
Qed.

Lemma Z_str_nat : forall n, Z_str (Z.of_nat n) = nat_str n.
Proof. intros [|n]; reflexivity. Qed.

(* ------------------------------------------------------------------ *)
(** * Splitting at '=' and searching for KEY= *)

Lemma split_on_none : forall c s, ~ In c s -> split_on c s = [s].
Proof.
  induction s as [|x s IH]; intros H; [reflexivity|]. cbn [split_on].
  rewrite ascii_eqb_neq by (intros ->; apply H; simpl; auto). rewrite IH by (intros K; apply H; simpl; auto).
  reflexivity.
Qed.

Lemma split_on_one : forall c a b, ~ In c a -> ~ In c b -> split_on c (a ++ c :: b) = [a; b].
Proof.
  intros c a b Ha Hb. induction a as [|x a IH]; cbn [app split_on].
  - rewrite Ascii.eqb_refl, split_on_none by auto. reflexivity.
  - rewrite ascii_eqb_neq by (intros ->; apply Ha; simpl; auto).
    rewrite IH by (intros K; apply Ha; simpl; auto). reflexivity.
Qed.

(** [s] is a suffix of [a]. *)
Fixpoint ends_with (s a : str) : bool :=
  str_eqb s a || match a with [] => false | _ :: r => ends_with s r end.

Lemma prefixb_key : forall s a c b, ~ In c s -> ~ In c a -> ~ In c b ->
  prefixb (s ++ [c]) (a ++ c :: b) = str_eqb s a.
Proof.
  induction s as [|x s IH]; intros a c b Hs Ha Hb; destruct a as [|y a]; cbn [app prefixb].
  - rewrite Ascii.eqb_refl. reflexivity.
  - rewrite ascii_eqb_neq by (intros ->; apply Ha; simpl; auto). reflexivity.
  - rewrite ascii_eqb_neq by (intros ->; apply Hs; simpl; auto). reflexivity.
  - rewrite IH by (intros K; simpl in *; tauto). unfold str_eqb.
    destruct (Ascii.eqb_spec x y) as [->|Hne]; cbn [andb].
    + destruct (str_dec s a), (str_dec (y :: s) (y :: a)); auto; congruence.
    + destruct (str_dec (x :: s) (y :: a)); auto. congruence.
Qed.

Lemma prefixb_no : forall s c b, ~ In c b -> prefixb (s ++ [c]) b = false.
Proof.
  induction s as [|x s IH]; intros c b Hb; destruct b as [|y b]; cbn [app prefixb]; auto.
  - rewrite ascii_eqb_neq by (intros ->; apply Hb; simpl; auto). reflexivity.
  - rewrite IH by (intros K; apply Hb; simpl; auto). apply andb_false_r.
Qed.

Lemma contains_no : forall s c b, ~ In c b -> contains (s ++ [c]) b = false.
Proof.
  intros s c b. induction b as [|y b IH]; intros Hb; cbn [contains].
  - rewrite prefixb_no by auto. reflexivity.
  - rewrite prefixb_no by auto. cbn [orb]. apply IH. intros K; apply Hb; simpl; auto.
Qed.

Lemma contains_key : forall s a c b, ~ In c s -> ~ In c a -> ~ In c b ->
  contains (s ++ [c]) (a ++ c :: b) = ends_with s a.
Proof.
  intros s a c b Hs Ha Hb. induction a as [|y a IH].
  - cbn [app contains ends_with].
    pose proof (prefixb_key s [] c b Hs Ha Hb) as E. cbn [app] in E. rewrite E.
    f_equal. apply contains_no. auto.
  - change ((y :: a) ++ c :: b) with (y :: a ++ c :: b). cbn [contains ends_with].
    change (y :: a ++ c :: b) with ((y :: a) ++ c :: b). rewrite prefixb_key by auto. f_equal.
    apply IH. intros K; apply Ha; simpl; auto.
Qed.

Lemma remove_char_app : forall c a b, remove_char c (a ++ b) = remove_char c a ++ remove_char c b.
Proof. intros. unfold remove_char. apply filter_app. Qed.

Lemma remove_char_none : forall c s, ~ In c s -> remove_char c s = s.
Proof.
  intros c s H. unfold remove_char. induction s as [|x s IH]; [reflexivity|]. cbn [filter].
  rewrite ascii_eqb_neq by (intros ->; apply H; simpl; auto). cbn [negb]. f_equal.
  apply IH. intros K; apply H; simpl; auto.
Qed.

(** The list of quoted names, without quotes and commas. *)
Lemma unquote : forall ws, (forall w, In w ws -> ~ In dquote w /\ ~ In comma w) ->
  remove_char comma (remove_char dquote (join (lit ", ") (map (fun k => lit """" ++ k ++ lit """") ws))) =
  join [sp] ws.
Proof.
  assert (Hq : forall w, ~ In dquote w /\ ~ In comma w ->
    remove_char comma (remove_char dquote (lit """" ++ w ++ lit """")) = w).
  { intros w [H1 H2]. rewrite !remove_char_app. rewrite (remove_char_none dquote w), (remove_char_none comma w) by auto.
    change (remove_char comma (remove_char dquote (lit """"))) with (@nil ascii). rewrite app_nil_r. reflexivity. }
  induction ws as [|w ws IH]; intros H; [reflexivity|]. destruct ws as [|w2 ws].
  - cbn [map join]. apply Hq. apply H. simpl. auto.
  - cbn [map]. rewrite !join_cons. rewrite (remove_char_app dquote). rewrite (remove_char_app comma).
    rewrite Hq by (apply H; simpl; auto). f_equal.
    rewrite (remove_char_app dquote). rewrite (remove_char_app comma). f_equal.
    apply IH. intros; apply H; simpl in *; auto.
Qed.
