(** Proofs about Grid.Import of the converter: it ends, files written by Export are rejected,
    files with more variables are rejected. *)

From Coq Require Import ZArith NArith Reals Ascii String Bool Lia List.
From Verif Require Import Py PyLemmas TextLemmas Heap GridSpec MpiSpec FileSpec GridModel GridIO LoadParse StoreSpec StoreProofs RoundTrip
  Geom Convert Ansys AnsysSpec AnsysText AnsysExportSpec AnsysExport Import ImportSpec ImportProofs.
Import ListNotations.
Open Scope list_scope.
Open Scope nat_scope.

(** ** Import ends *)

Definition ends {A} (r : res A) : Prop := r <> Raise EOutOfFuel.

Lemma ends_ok : forall A (x : A), ends (Ok x).
Proof. intros A x. discriminate. Qed.
Lemma ends_bind : forall A B (r : res A) (f : A -> res B), ends r -> (forall x, r = Ok x -> ends (f x)) -> ends (rbind r f).
Proof. intros A B [x|e] f H1 H2; cbn; [apply H2; reflexivity|intros E; apply H1; injection E as ->; reflexivity]. Qed.
Lemma ends_get : forall A (l : list A) i, ends (py_get l i).
Proof. intros A l i. unfold ends, py_get. destruct (py_index _ i) as [k|]; [destruct (nth_error l k); discriminate|discriminate]. Qed.
Lemma ends_int : forall s, ends (py_int s).
Proof.
  intros s. unfold ends, py_int. destruct (strip s) as [|c r]; [discriminate|].
  destruct (Ascii.eqb c "-"); [destruct (all_digits r); discriminate|].
  destruct (Ascii.eqb c "+"); [destruct (all_digits r); discriminate|]. destruct (all_digits (c :: r)); discriminate.
Qed.
Lemma ends_check : forall b, ends (check b).
Proof. intros []; discriminate. Qed.
Lemma ends_rmap : forall A B (f : A -> res B) l, (forall x, ends (f x)) -> ends (rmap f l).
Proof.
  intros A B f l H. induction l as [|x l IH]; [apply ends_ok|]. cbn [rmap]. apply ends_bind; auto. intros y _. apply ends_bind; auto.
  intros ys _. apply ends_ok.
Qed.

Section Import.
  Context {F : FloatOps}.

  Lemma ends_float : forall ws i, ends (float_at ws i).
  Proof. intros. apply ends_bind; [apply ends_get|]. intros s _. destruct (prs s); discriminate. Qed.
  Lemma ends_corner : forall n ns k, ends (import_corner n ns k).
  Proof.
    intros. apply ends_bind; [apply ends_get|]. intros s _. apply ends_bind; [apply ends_int|]. intros i _. destruct (py_index n (i - 1)); discriminate.
  Qed.
  Lemma ends_count : forall l, ends (import_count l).
  Proof. intros. apply ends_bind; [apply ends_get|]. intros s _. apply ends_int. Qed.
  Lemma ends_title : forall l, ends (title_of l).
  Proof. intros. apply ends_bind; [apply ends_get|]. intros s _. apply ends_ok. Qed.

  Lemma ends_faces : forall n a b c d e is ls, ends (import_faces n a b c d e is ls).
  Proof.
    intros n a b c d e is. induction is as [|i r IH]; intros ls; [apply ends_ok|]. cbn [import_faces]. destruct (readline ls) as [l ls1].
    do 3 (apply ends_bind; [apply ends_corner|]; intros ? _). do 5 (apply ends_bind; [apply ends_float|]; intros ? _).
    apply ends_bind; [apply IH|]. intros ? _. apply ends_ok.
  Qed.

  Lemma readline_len : forall ls, length (snd (readline ls)) <= length ls.
  Proof. intros [|l ls]; cbn; lia. Qed.

  Lemma faces_len : forall n a b c d e is ls r, import_faces n a b c d e is ls = Ok r -> length (snd r) <= length ls.
  Proof.
    intros n a b c d e is. induction is as [|i is IH]; intros ls r E; [injection E as <-; auto|]. cbn [import_faces] in E.
    pose proof (readline_len ls) as L. destruct (readline ls) as [l ls1]. cbn [snd] in L.
    repeat match type of E with rbind ?x _ = Ok _ => let y := fresh in destruct x as [y|] eqn:?; [cbn [rbind] in E|discriminate] end.
    injection E as <-. cbn [snd]. match goal with H : import_faces _ _ _ _ _ _ _ _ = Ok _ |- _ => apply IH in H; lia end.
  Qed.

  Lemma import_zone_ends : forall l ls, ends (import_zone l ls) /\ forall iz r, import_zone l ls = Ok (iz, r) -> length r <= length ls.
  Proof.
    intros l ls. unfold import_zone.
    assert (L : forall k (x : list str), length x <= k -> length (snd (readline x)) <= k) by (intros k x H; pose proof (readline_len x); lia).
    split.
    - apply ends_bind; [apply ends_title|]. intros t _. destruct (readline ls) as [l1 ls1]. apply ends_bind; [apply ends_count|]. intros n _.
      destruct (readline ls1) as [l2 ls2]. apply ends_bind; [apply ends_count|]. intros m _.
      cbv zeta. destruct (readline (snd (readline (snd (readline (snd (readline ls2))))))) as [lx ls3].
      destruct (readline ls3) as [ly ls4]. destruct (readline ls4) as [lz ls5].
      do 3 (apply ends_bind; [apply ends_check|]; intros ? _).
      apply ends_bind.
      { apply ends_rmap. intros i. do 3 (apply ends_bind; [apply ends_float|]; intros ? _). apply ends_ok. }
      intros pts _. destruct (readline (snd (readline (snd (readline (snd (readline ls5))))))) as [lh ls6].
      destruct (readline ls6) as [lb ls7]. destruct (readline ls7) as [l7 ls8]. destruct (readline ls8) as [l8 ls9]. destruct (readline ls9) as [l9 ls10].
      do 5 (apply ends_bind; [apply ends_check|]; intros ? _).
      apply ends_bind; [apply ends_faces|]. intros ? _. apply ends_ok.
    - intros iz r E.
      destruct (title_of l); [cbn [rbind] in E|discriminate].
      pose proof (readline_len ls) as K1. destruct (readline ls) as [l1 ls1]. cbn [snd] in K1.
      destruct (import_count l1); [cbn [rbind] in E|discriminate].
      pose proof (readline_len ls1) as K2. destruct (readline ls1) as [l2 ls2]. cbn [snd] in K2.
      destruct (import_count l2); [cbn [rbind] in E|discriminate]. cbv zeta in E.
      assert (K3 : length (snd (readline (snd (readline (snd (readline (snd (readline ls2)))))))) <= length ls2) by (repeat apply L; auto).
      destruct (readline (snd (readline (snd (readline (snd (readline ls2))))))) as [lx ls3]. cbn [snd] in K3.
      pose proof (readline_len ls3) as K4. destruct (readline ls3) as [ly ls4]. cbn [snd] in K4.
      pose proof (readline_len ls4) as K5. destruct (readline ls4) as [lz ls5]. cbn [snd] in K5.
      do 3 (match type of E with rbind ?x _ = Ok _ => destruct x; [cbn [rbind] in E|discriminate] end).
      match type of E with rbind ?x _ = Ok _ => destruct x; [cbn [rbind] in E|discriminate] end.
      assert (K6 : length (snd (readline (snd (readline (snd (readline (snd (readline ls5)))))))) <= length ls5) by (repeat apply L; auto).
      destruct (readline (snd (readline (snd (readline (snd (readline ls5))))))) as [lh ls6]. cbn [snd] in K6.
      pose proof (readline_len ls6) as K7. destruct (readline ls6) as [lb ls7]. cbn [snd] in K7.
      pose proof (readline_len ls7) as K8. destruct (readline ls7) as [l7 ls8]. cbn [snd] in K8.
      pose proof (readline_len ls8) as K9. destruct (readline ls8) as [l8 ls9]. cbn [snd] in K9.
      pose proof (readline_len ls9) as K10. destruct (readline ls9) as [l9 ls10]. cbn [snd] in K10.
      do 5 (match type of E with rbind ?x _ = Ok _ => destruct x; [cbn [rbind] in E|discriminate] end).
      match type of E with rbind ?x _ = Ok _ => destruct x as [fr|] eqn:Ef; [cbn [rbind] in E|discriminate] end.
      injection E as _ <-. apply faces_len in Ef. lia.
  Qed.

  Lemma import_loop_ends : forall k ls, length ls < k -> ends (import_loop k ls).
  Proof.
    intros k. induction k as [|k IH]; intros ls L; [lia|]. cbn [import_loop]. destruct ls as [|l ls]; [apply ends_ok|]. cbn [length] in L.
    destruct (contains (lit "EXPORT_MODE") l); [apply IH; lia|].
    destruct (contains (lit "TITLE") l); [apply IH; lia|].
    destruct (contains (lit "VARIABLES") l); [apply IH; lia|].
    destruct (contains (lit "ZONE T=") l); [|apply IH; lia].
    destruct (import_zone_ends l ls) as [E1 E2].
    apply ends_bind; [exact E1|]. intros [iz r] E. apply ends_bind; [apply IH; apply E2 in E; cbn [snd]; lia|]. intros ? _. apply ends_ok.
  Qed.

  Theorem import_ends : forall text, ends (import_grid text).
  Proof. intros text. apply import_loop_ends. lia. Qed.

  (** ** Files written by Export *)

  Lemma check_no : forall b, check b = Ok tt -> b = true.
  Proof. intros []; [auto|discriminate]. Qed.

  (** A zone whose eighth line of values after the coordinates has another number of words
      than the zone has elements is rejected. *)
  Lemma zone_rejected : forall l ls r, import_zone l ls = Ok r -> forall l1 l2 l3 l4 l5 x y z d1 d2 d3 d4 d5 d6 d7 rest e,
    ls = l1 :: l2 :: l3 :: l4 :: l5 :: x :: y :: z :: d1 :: d2 :: d3 :: d4 :: d5 :: d6 :: d7 :: rest -> import_count l2 = Ok e ->
    Z.of_nat (length (split_ws d7)) = e /\ exists n htcs betas tauxs tauys tauzs fr,
      import_faces n htcs betas tauxs tauys tauzs (seq 0 (Z.to_nat e)) (snd (readline rest)) = Ok fr.
  Proof.
    intros l ls r E l1 l2 l3 l4 l5 x y z d1 d2 d3 d4 d5 d6 d7 rest e -> Ee. unfold import_zone in E.
    destruct (title_of l); [cbn [rbind readline fst snd] in E|discriminate].
    destruct (import_count l1); [cbn [rbind] in E|discriminate]. rewrite Ee in E. cbn [rbind] in E.
    do 3 (match type of E with rbind ?x _ = Ok _ => destruct x; [cbn [rbind] in E|discriminate] end).
    match type of E with rbind ?x _ = Ok _ => destruct x; [cbn [rbind] in E|discriminate] end.
    fold (readline rest) in E. destruct (readline rest) as [l9 ls9]. cbn [snd].
    do 3 (match type of E with rbind ?x _ = Ok _ => destruct x; [cbn [rbind] in E|discriminate] end).
    match type of E with rbind ?x _ = Ok _ => destruct x as [[]|] eqn:C; [cbn [rbind] in E|discriminate] end.
    apply check_no in C. unfold len_is in C. apply Z.eqb_eq in C. split; [exact C|].
    match type of E with rbind ?x _ = Ok _ => destruct x; [cbn [rbind] in E|discriminate] end.
    match type of E with rbind ?x _ = Ok _ => destruct x as [fr|] eqn:Ef; [cbn [rbind] in E|discriminate] end.
    eexists _, _, _, _, _, _, fr. exact Ef.
  Qed.

  Variables (fm : R -> str) (rd : R -> val).
  Hypothesis fm_word : forall x, word (fm x).

  Lemma export_whole : forall zs, Forall exportable zs -> file_lines (List.concat (export fm zs)) = export fm zs.
  Proof.
    intros zs H. apply file_lines_concat.
    intros l I. unfold export in I. destruct I as [<-|I]; [rewrite app_assoc; apply plain_line; apply lit_ok; vm_compute; reflexivity|].
    apply in_flat_map in I. destruct I as (z & Iz & I). rewrite Forall_forall in H. destruct (H z Iz) as [_ Ht].
    unfold export_zone in I. apply in_app_iff in I. destruct I as [I|I].
    + cbn [In] in I.
      repeat (destruct I as [<-|I]; [first [apply values_whole; assumption | apply plain_line; apply lit_ok; vm_compute; reflexivity | idtac]|]); [| | |destruct I].
      * change (lit "ZONE T=" ++ [dquote] ++ fz_title z ++ [dquote; nl]) with (lit "ZONE T=" ++ [dquote] ++ fz_title z ++ [dquote] ++ [nl]).
        rewrite !app_assoc. apply plain_line. repeat apply plain_app; try (apply lit_ok; vm_compute; reflexivity).
        intros c Ic. destruct (Ht c Ic) as (_ & ? & ?). auto.
      * rewrite app_assoc. apply plain_line. apply plain_app; [apply lit_ok; vm_compute; reflexivity|apply plain_nat].
      * rewrite app_assoc. apply plain_line. apply plain_app; [apply lit_ok; vm_compute; reflexivity|apply plain_nat].
    + apply in_map_iff in I. destruct I as (f & <- & _). apply link_whole.
  Qed.

  Lemma head_words : forall t, exists ws, split_ws (lit "ZONE T=" ++ t) = lit "ZONE" :: ws.
  Proof.
    intros t. change (lit "ZONE T=" ++ t) with (lit "ZONE" ++ sp :: lit "T=" ++ t). eexists. apply split_ws_word; [|reflexivity].
    split; [discriminate|]. intros c I. cbn in I. repeat destruct I as [<-|I]; try reflexivity. destruct I.
  Qed.

  Lemma loop_skip : forall k l ls izs, contains (lit "VARIABLES") l = true -> import_loop k (l :: ls) = Ok izs -> exists k', import_loop k' ls = Ok izs.
  Proof.
    intros [|k] l ls izs C E; [discriminate|]. cbn [import_loop] in E. rewrite C in E. exists k.
    destruct (contains (lit "EXPORT_MODE") l); [exact E|]. destruct (contains (lit "TITLE") l); exact E.
  Qed.

  Lemma loop_zone : forall k l ls izs, (forall w, In w ["EXPORT_MODE"; "TITLE"; "VARIABLES"]%string -> contains (lit w) l = false) ->
    contains (lit "ZONE T=") l = true -> import_loop k (l :: ls) = Ok izs -> exists r, import_zone l ls = Ok r.
  Proof.
    intros [|k] l ls izs W C E; [discriminate|]. cbn [import_loop] in E. rewrite !W in E by (cbn; auto). rewrite C in E.
    destruct (import_zone l ls) as [r|]; [eauto|discriminate].
  Qed.

  Lemma quiet_words : forall t, quiet t -> forall w, In w ["EXPORT_MODE"; "TITLE"; "VARIABLES"]%string ->
    contains (lit w) (lit "ZONE T=" ++ [dquote] ++ t ++ [dquote; nl]) = false.
  Proof.
    intros t Hq w I. apply (zone_word t (lit w)); [apply Hq; exact I|..]; cbn [In] in I;
      repeat destruct I as [<-|I]; try discriminate; try (apply lit_no_eq; reflexivity); try (apply contains_not; reflexivity); destruct I.
  Qed.

  Theorem export_rejected : forall zs, Forall exportable zs -> (forall z, In z zs -> quiet (fz_title z)) ->
    (exists z, In z zs /\ fz_faces z <> []) -> forall izs, import_grid (List.concat (export fm zs)) <> Ok izs.
  Proof.
    intros zs He Hq (z0 & I0 & N0) izs E. unfold import_grid in E. rewrite (export_whole zs He) in E. unfold export in E. cbv zeta in E.
    apply loop_skip in E; [|reflexivity]. destruct E as (k & E).
    destruct zs as [|z zs]; [destruct I0|]. cbn [flat_map] in E.
    assert (Hz : quiet (fz_title z)) by (apply Hq; left; reflexivity). clear He Hq.
    unfold export_zone at 1 in E. cbn [app] in E. apply loop_zone in E; [|apply quiet_words; exact Hz|reflexivity]. destruct E as (r & E).
    assert (C : import_count (lit "ELEMENTS=" ++ nat_str (length (fz_faces z)) ++ [nl]) = Ok (Z.of_nat (length (fz_faces z)))).
    { apply (import_count_ok (lit "ELEMENTS")). apply lit_no_eq. reflexivity. }
    destruct (fz_faces z) as [|f1 fs] eqn:Ef.
    - destruct zs as [|z1 zs]. { destruct I0 as [<-|[]]. congruence. }
      cbn [map app flat_map] in E. unfold export_zone in E. cbn [app] in E.
      destruct (zone_rejected _ _ _ E _ _ _ _ _ _ _ _ _ _ _ _ _ _ _ _ _ eq_refl C) as [L _].
      destruct (head_words ([dquote] ++ fz_title z1 ++ [dquote; nl])) as (ws & Ew). cbn [app] in Ew. rewrite Ew in L. discriminate L.
    - cbn [map app] in E.
      destruct (zone_rejected _ _ _ E _ _ _ _ _ _ _ _ _ _ _ _ _ _ _ _ _ eq_refl C) as [L (n & htcs & betas & tauxs & tauys & tauzs & fr & Er)].
      assert (L3 : length (split_ws (link_line f1)) = 3) by (destruct f1 as [[a b] c]; rewrite link_words; reflexivity).
      match type of L with Z.of_nat ?x = _ => replace x with 3 in L by (symmetry; exact L3) end. cbn [length] in L.
      destruct fs as [|f2 [|f3 [|f4 fs]]]; cbn [length] in L; try lia.
      change (Z.to_nat (Z.of_nat 3)) with 3 in Er. cbn [map app readline snd length seq] in Er.
      change (Z.to_nat (Z.of_nat 3)) with 3 in Er. cbn [seq import_faces readline] in Er.
      do 8 (match type of Er with rbind ?x _ = Ok _ => destruct x; [cbn [rbind] in Er|discriminate] end).
      destruct zs as [|z1 zs].
      + cbn [flat_map readline] in Er. cbn [rbind] in Er. discriminate Er.
      + cbn [flat_map] in Er. unfold export_zone in Er. cbn [app readline] in Er.
        destruct (head_words ([dquote] ++ fz_title z1 ++ [dquote; nl])) as (ws & Ew). cbn [app] in Ew.
        rewrite Ew in Er. unfold import_corner at 1 in Er. rewrite py_get_0 in Er. cbn [rbind] in Er.
        change (py_int (lit "ZONE")) with (@Raise Z EValueError) in Er. discriminate Er.
  Qed.
End Import.
