(** Texts: lines that are written and read again, words of written rows. *)

From Coq Require Import ZArith Reals Bool List Lia String Ascii.
From Verif Require Import Py PyLemmas TextLemmas Geom Convert ConvertSpec Ansys AnsysSpec AnsysText AnsysProofs AnsysMain AnsysMainSpec.
Import ListNotations.
Open Scope list_scope.
Open Scope nat_scope.

(* ================================================================ *)
(** ** Lines of a file *)

Definition half_line (l : str) : Prop := l <> [] /\ forall c, In c l -> c <> nl /\ c <> cr.

Inductive ok_lines : list str -> Prop :=
  | okl_nil : ok_lines []
  | okl_last : forall l, half_line l -> ok_lines [l]
  | okl_cons : forall l r, whole_line l -> ok_lines r -> ok_lines (l :: r).

Lemma universal_no_cr : forall s c, In c (universal_nl s) -> c <> cr.
Proof.
  assert (H : forall n s, List.length s <= n -> forall c, In c (universal_nl s) -> c <> cr).
  { induction n as [|n IH]; intros s L c I; (destruct s as [|x s]; [destruct I|]); cbn [List.length] in L; [lia|].
    cbn [universal_nl] in I. destruct (Ascii.eqb_spec x cr) as [->|N].
    - destruct s as [|d s]; [destruct I as [<-|[]]; discriminate|]. destruct (Ascii.eqb_spec d nl) as [->|].
      + destruct I as [<-|I]; [discriminate|]. apply (IH s); auto. cbn in L; lia.
      + destruct I as [<-|I]; [discriminate|]. apply (IH (d :: s)); auto. lia.
    - destruct I as [<-|I]; auto. apply (IH s); auto. lia. }
  intros s. apply (H (List.length s)). auto.
Qed.

Lemma lines_ok : forall s, (forall c, In c s -> c <> cr) -> ok_lines (lines s).
Proof.
  induction s as [|c s IH]; intros H; [constructor|]. cbn [lines].
  assert (H0 : ok_lines (lines s)) by (apply IH; intros; apply H; simpl; auto).
  assert (Hc : c <> cr) by (apply H; simpl; auto).
  destruct (Ascii.eqb_spec c nl) as [->|N].
  - apply okl_cons; [exists []; split; [reflexivity|intros x []]|auto].
  - inversion H0 as [|l Hl|l r Hl Hr].
    + apply okl_last. split; [discriminate|]. intros x [<-|[]]; auto.
    + apply okl_last. split; [discriminate|]. intros x [<-|I]; [auto|apply Hl; auto].
    + apply okl_cons; auto. destruct Hl as (t & -> & Ht). exists (c :: t). split; [reflexivity|intros x [<-|I]; auto].
Qed.

Lemma file_lines_form : forall text, ok_lines (file_lines text).
Proof. intros text. apply lines_ok. intros c. apply universal_no_cr. Qed.

Lemma lines_half : forall l, half_line l -> lines l = [l].
Proof.
  intros l [Hne H]. induction l as [|c l IH]; [congruence|]. cbn [lines]. rewrite ascii_eqb_neq by (apply H; simpl; auto).
  destruct l as [|d l]; [reflexivity|]. rewrite IH; auto; [discriminate|]. intros; apply H; simpl in *; auto.
Qed.

Lemma lines_again : forall ls, ok_lines ls -> lines (List.concat ls) = ls.
Proof.
  induction 1 as [|l H|l r H K IH]; [reflexivity| |].
  - cbn [List.concat]. rewrite app_nil_r. apply lines_half. auto.
  - destruct H as (s & -> & Hs). cbn [List.concat]. rewrite <- app_assoc. cbn [app]. rewrite lines_whole by (intros c I; apply Hs; auto). rewrite IH. reflexivity.
Qed.

Lemma read_again : forall ls, ok_lines ls -> file_lines (List.concat ls) = ls.
Proof.
  intros ls H. unfold file_lines. rewrite universal_nl_id; [apply lines_again; auto|].
  induction H as [|l H|l r H K IH]; intros c I.
  - destruct I.
  - cbn [List.concat] in I. rewrite app_nil_r in I. apply H. auto.
  - cbn [List.concat] in I. apply in_app_iff in I as [I|I]; [|auto]. destruct H as (s & -> & Hs).
    apply in_app_iff in I as [I|[<-|[]]]; [apply Hs; auto|discriminate].
Qed.

Inductive subl {A} : list A -> list A -> Prop :=
  | subl_nil : subl [] []
  | subl_skip : forall x a b, subl a b -> subl a (x :: b)
  | subl_keep : forall x a b, subl a b -> subl (x :: a) (x :: b).

Lemma subl_refl : forall A (a : list A), subl a a.
Proof. induction a as [|x a IH]; [apply subl_nil|apply subl_keep; exact IH]. Qed.
Lemma subl_app : forall A (a b c d : list A), subl a b -> subl c d -> subl (a ++ c) (b ++ d).
Proof. intros A a b c d H K. induction H as [|x a b H IH|x a b H IH]; cbn [app]; [exact K|apply subl_skip; exact IH|apply subl_keep; exact IH]. Qed.
Lemma subl_none : forall A (b : list A), subl [] b.
Proof. induction b as [|x b IH]; [apply subl_nil|apply subl_skip; exact IH]. Qed.

Lemma ok_sub : forall a b, subl a b -> ok_lines b -> ok_lines a.
Proof.
  intros a b H. induction H as [|x a b H IH|x a b H IH]; intros K; auto.
  - inversion K as [|l Hl|l r Hl Hr]; subst; auto. apply IH. constructor.
  - inversion K as [|l Hl|l r Hl Hr]; subst.
    + inversion H; subst. apply okl_last. auto.
    + apply okl_cons; auto.
Qed.

Lemma ok_map : forall a b, Forall2 (fun l l' => l' = l \/ whole_line l') a b -> ok_lines a -> ok_lines b.
Proof.
  intros a b H. induction H as [|x y a b E H IH]; intros K; [constructor|].
  inversion K as [|l Hl|l r Hl Hr]; subst.
  - inversion H; subst. destruct E as [->|W]; [apply okl_last; auto|]. apply okl_cons; [auto|constructor].
  - apply okl_cons; auto. destruct E as [->|W]; auto.
Qed.

Lemma same_refl : forall a : list str, Forall2 (fun l l' => l' = l \/ whole_line l') a a.
Proof. induction a; constructor; auto. Qed.

(* ================================================================ *)
(** ** Words *)

Lemma space_nl : is_space nl = true.
Proof. reflexivity. Qed.
Lemma space_cr : is_space cr = true.
Proof. reflexivity. Qed.

Lemma word_no_nl : forall w c, word w -> In c w -> c <> nl /\ c <> cr.
Proof. intros w c [_ H] I. specialize (H c I). split; intros ->; discriminate. Qed.

Lemma aux_words : forall s cur w, (forall c, In c cur -> is_space c = false) -> In w (split_ws_aux cur s) -> word w /\ occurs w (rev cur ++ s).
Proof.
  induction s as [|x s IH]; intros cur w H I; cbn [split_ws_aux] in I.
  - destruct cur as [|c cur]; [destruct I|]. destruct I as [<-|[]]. split.
    + split; [intros E; apply (f_equal (@List.length ascii)) in E; rewrite rev_length in E; discriminate|].
      intros a Ha. apply H. apply in_rev. auto.
    + exists [], []. reflexivity.
  - destruct (is_space x) eqn:E.
    + assert (R : In w (split_ws_aux [] s) -> word w /\ occurs w (rev cur ++ x :: s)).
      { intros J. apply IH in J; [|intros c []]. destruct J as [J (a & b & E2)]. split; auto. cbn in E2.
        exists (rev cur ++ x :: a), b. rewrite E2, <- app_assoc. reflexivity. }
      destruct cur as [|c cur]; [auto|]. destruct I as [<-|I]; [|auto]. split.
      * split; [intros E2; apply (f_equal (@List.length ascii)) in E2; rewrite rev_length in E2; discriminate|].
        intros a Ha. apply H. apply in_rev. auto.
      * exists [], (x :: s). reflexivity.
    + apply IH in I; [|intros c [<-|J]; auto]. cbn [rev] in I. rewrite <- app_assoc in I. exact I.
Qed.

Lemma words_in : forall l w, In w (split_ws l) -> word w /\ occurs w l.
Proof. intros l w I. apply (aux_words l [] w); auto. intros c []. Qed.

Lemma occurs_trans : forall a b c, occurs a b -> occurs b c -> occurs a c.
Proof. intros a b c (x & y & ->) (u & v & ->). exists (u ++ x), (y ++ v). rewrite <- !app_assoc. reflexivity. Qed.

Lemma prefix_before : forall (k : str) y a c b, ~ In c k -> k ++ y = a ++ c :: b -> exists r, a = k ++ r.
Proof.
  induction k as [|x k IH]; intros y a c b H E; [exists a; reflexivity|]. destruct a as [|z a]; cbn [app] in E.
  - injection E as -> _. exfalso. apply H. left. auto.
  - injection E as -> E. destruct (IH y a c b) as [r ->]; [intros J; apply H; right; auto|auto|]. exists r. reflexivity.
Qed.

Lemma occurs_parts : forall k a c b, ~ In c k -> occurs k (a ++ c :: b) -> occurs k a \/ occurs k b.
Proof.
  intros k a c b H (x & y & E). revert a E. induction x as [|u x IH]; intros a E; cbn [app] in E.
  - symmetry in E. destruct (prefix_before k y a c b H E) as [r ->]. left. exists [], r. reflexivity.
  - destruct a as [|z a]; cbn [app] in E; injection E as -> E.
    + right. exists x, y. auto.
    + destruct (IH a E) as [(p & q & ->)|R]; [left|right; auto]. exists (u :: p), q. reflexivity.
Qed.

Lemma occurs_nil : forall k, k <> [] -> ~ occurs k [].
Proof. intros k H (a & b & E). symmetry in E. apply app_eq_nil in E as [_ E]. apply app_eq_nil in E as [E _]. auto. Qed.

Lemma occurs_join : forall k ws, k <> [] -> ~ In sp k -> occurs k (join [sp] ws) -> exists w, In w ws /\ occurs k w.
Proof.
  intros k ws Hk Hs. induction ws as [|w ws IH]; intros H; [exfalso; apply (occurs_nil k Hk H)|].
  destruct ws as [|w2 ws].
  - exists w. split; [left; auto|exact H].
  - rewrite join_cons in H. cbn [app] in H. apply occurs_parts in H as [H|H]; auto.
    + exists w. split; [left; auto|auto].
    + destruct (IH H) as (x & I & O). exists x. split; [right; auto|auto].
Qed.

Lemma occurs_row : forall k ws, k <> [] -> ~ In sp k -> ~ In nl k -> occurs k (written_row ws) -> exists w, In w ws /\ occurs k w.
Proof.
  intros k ws Hk Hs Hn H. unfold written_row in H. change (lit " ") with [sp] in H. apply occurs_parts in H as [H|H]; auto.
  - apply occurs_join; auto.
  - exfalso. apply (occurs_nil k Hk H).
Qed.

Lemma no_char : forall c (s : str), existsb (Ascii.eqb c) s = false -> ~ In c s.
Proof.
  intros c s H I. assert (existsb (Ascii.eqb c) s = true) by (apply existsb_exists; exists c; split; [auto|apply Ascii.eqb_refl]). congruence.
Qed.

Lemma plain_row : forall ws, (forall w, In w ws -> plain w) -> plain (written_row ws).
Proof.
  intros ws H. split; [|split]; intros O; apply occurs_row in O; try discriminate; try (apply no_char; reflexivity);
    destruct O as (w & I & O); destruct (H w I) as (A & B & C); auto.
Qed.

Lemma plain_word : forall l w, plain l -> In w (split_ws l) -> plain w.
Proof.
  intros l w (A & B & C) I. apply words_in in I as [_ O]. repeat split; intros K; [apply A|apply B|apply C]; eapply occurs_trans; eauto.
Qed.

Lemma row_words : forall ws, (forall w, In w ws -> word w) -> split_ws (written_row ws) = ws.
Proof. intros ws H. unfold written_row. change (lit " ") with [sp]. apply split_ws_join; auto. Qed.

Lemma join_In : forall sep (ws : list str) c, In c (join sep ws) -> In c sep \/ exists w, In w ws /\ In c w.
Proof.
  intros sep ws c. induction ws as [|w ws IH]; intros I; [destruct I|]. destruct ws as [|w2 ws].
  - right. exists w. split; [left; auto|exact I].
  - rewrite join_cons in I. apply in_app_iff in I as [I|I]; [right; exists w; split; [left; auto|auto]|].
    apply in_app_iff in I as [I|I]; [left; auto|]. destruct (IH I) as [J|(x & J & K)]; [left; auto|]. right. exists x. split; [right; auto|auto].
Qed.

Lemma row_whole : forall ws, (forall w, In w ws -> word w) -> whole_line (written_row ws).
Proof.
  intros ws H. exists (join (lit " ") ws). split; [reflexivity|]. intros c I. apply join_In in I as [I|(w & I & J)].
  - destruct I as [<-|[]]. split; discriminate.
  - apply (word_no_nl w); auto.
Qed.

Lemma pick_In : forall A cols (l : list A) x, In x (pick cols l) -> In x l.
Proof.
  intros A cols l x I. unfold pick in I. apply in_flat_map in I as (i & _ & I). destruct (nth_error l i) eqn:E; [|destruct I].
  destruct I as [<-|[]]. eapply nth_error_In; eauto.
Qed.

Lemma last_answer_fun : forall snames fn a b, last_answer snames fn a -> last_answer snames fn b -> a = b.
Proof.
  intros snames fn a b (x & y & E1 & A1 & N1) (u & v & E2 & A2 & N2). subst snames.
  revert u E2. induction x as [|p x IH]; intros u E2; destruct u as [|q u]; cbn [app] in E2; injection E2 as E E2; subst; auto.
  - exfalso. apply (N1 b); auto. apply in_app_iff. right. left. auto.
  - exfalso. apply (N2 a); auto. apply in_app_iff. right. left. auto.
  - apply (IH u); auto.
Qed.

Lemma answers_fun : forall snames l a b, Forall2 (last_answer snames) l a -> Forall2 (last_answer snames) l b -> a = b.
Proof.
  intros snames l a b H. revert b. induction H as [|fn x l a Hx H IH]; intros b K; inversion K; subst; [reflexivity|].
  f_equal; [eapply last_answer_fun; eauto|auto].
Qed.
