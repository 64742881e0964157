(** Every number that Grid.Import takes is written in the file. *)

From Coq Require Import ZArith Ascii String Bool List Lia.
From Verif Require Import Py PyLemmas TextLemmas Heap GridModel Mpi GridIO Import ImportSpec ImportWordsSpec.
Import ListNotations.
Open Scope list_scope.
Open Scope nat_scope.

Section Words.
  Context {F : FloatOps}.

  Lemma float_at_word : forall ws i v, float_at ws i = Ok v -> exists s, nth_error ws i = Some s /\ prs s = Some v.
  Proof.
    intros ws i v H. unfold float_at in H. destruct (py_get ws (Z.of_nat i)) as [s|e] eqn:E; [|discriminate H]. cbn [rbind] in H.
    destruct (prs s) as [w|] eqn:P; [|discriminate H]. injection H as <-. exists s. split; [|exact P].
    unfold py_get in E. destruct (nth_error ws i) as [u|] eqn:N.
    - pose proof (py_get_nat _ _ _ _ N) as K. unfold py_get in K. rewrite K in E. injection E as <-. reflexivity.
    - exfalso. destruct (py_index (length ws) (Z.of_nat i)) as [k|] eqn:Q; [|discriminate E]. unfold py_index in Q. apply nth_error_None in N.
      repeat match type of Q with (if ?c then _ else _) = _ => destruct c eqn:?; try discriminate Q end; lia.
  Qed.

  Lemma words_at : forall A (g : A -> val) ws pre ys, Forall2 (fun i y => float_at (pre ++ ws) i = Ok (g y)) (seq (length pre) (length ws)) ys ->
    Forall2 (fun s y => prs s = Some (g y)) ws ys.
  Proof.
    intros A g ws. induction ws as [|w ws IH]; intros pre ys H; cbn [length seq] in H.
    - inversion H. constructor.
    - inversion H as [|i y is ys' E H2]; subst. constructor.
      + destruct (float_at_word _ _ _ E) as (s & N & P). rewrite nth_error_app2, Nat.sub_diag in N by lia. injection N as <-. exact P.
      + apply (IH (pre ++ [w])). rewrite <- app_assoc. cbn [app]. rewrite app_length. cbn [length]. rewrite Nat.add_1_r. exact H2.
  Qed.

  Lemma column : forall A (g : A -> val) l n ys, len_is (split_ws l) n = true -> Forall2 (fun i y => float_at (split_ws l) i = Ok (g y)) (seq 0 (Z.to_nat n)) ys -> line_says l g ys.
  Proof.
    intros A g l n ys L H. unfold len_is in L. apply Z.eqb_eq in L. rewrite <- L, Nat2Z.id in H. exact (words_at A g (split_ws l) [] ys H).
  Qed.

  Lemma rmap_f2 : forall A B (f : A -> res B) l ys, rmap f l = Ok ys -> Forall2 (fun x y => f x = Ok y) l ys.
  Proof.
    intros A B f l. induction l as [|x l IH]; intros ys E; cbn [rmap] in E; [injection E as <-; constructor|].
    destruct (f x) as [y|e] eqn:Fx; [|discriminate E]. destruct (rmap f l) as [r|e]; [|discriminate E]. injection E as <-. constructor; [exact Fx|apply IH; reflexivity].
  Qed.

  Lemma f2_map : forall A B (P Q : A -> B -> Prop), (forall x y, P x y -> Q x y) -> forall l l', Forall2 P l l' -> Forall2 Q l l'.
  Proof. intros A B P Q H l l' K. induction K; constructor; auto. Qed.

  Lemma nodes_written : forall xs ys zs n pts, import_nodes xs ys zs n = Ok pts ->
    Forall2 (fun i (p : pt) => float_at xs i = Ok (fst (fst p)) /\ float_at ys i = Ok (snd (fst p)) /\ float_at zs i = Ok (snd p)) (seq 0 (Z.to_nat n)) pts.
  Proof.
    intros xs ys zs n pts H. unfold import_nodes in H. apply rmap_f2 in H. eapply f2_map; [|exact H]. cbn. intros i p E.
    destruct (float_at xs i) as [x|]; [|discriminate E]. destruct (float_at ys i) as [y|]; [|discriminate E]. destruct (float_at zs i) as [z|]; [|discriminate E]. cbn in E. injection E as <-. auto.
  Qed.

  Lemma faces_written : forall n htcs betas tauxs tauys tauzs is ls fr, import_faces n htcs betas tauxs tauys tauzs is ls = Ok fr ->
    Forall2 (fun i f => float_at htcs i = Ok (if_htc f) /\ float_at betas i = Ok (if_beta f) /\ float_at tauxs i = Ok (if_taux f) /\ float_at tauys i = Ok (if_tauy f) /\
      float_at tauzs i = Ok (if_tauz f)) is (fst fr) /\ forall l, In l (snd fr) -> In l ls.
  Proof.
    intros n htcs betas tauxs tauys tauzs is. induction is as [|i is IH]; intros ls fr H; cbn [import_faces] in H.
    - injection H as <-. split; [constructor|auto].
    - destruct (readline ls) as [l ls1] eqn:R. destruct (import_corner n (split_ws l) 0) as [a|]; [|discriminate H]. destruct (import_corner n (split_ws l) 1) as [b|]; [|discriminate H].
      destruct (import_corner n (split_ws l) 2) as [c|]; [|discriminate H]. cbn [rbind] in H.
      destruct (float_at htcs i) as [v1|] eqn:E1; [|discriminate H]. destruct (float_at betas i) as [v2|] eqn:E2; [|discriminate H]. destruct (float_at tauxs i) as [v3|] eqn:E3; [|discriminate H].
      destruct (float_at tauys i) as [v4|] eqn:E4; [|discriminate H]. destruct (float_at tauzs i) as [v5|] eqn:E5; [|discriminate H]. cbn [rbind] in H.
      destruct (import_faces n htcs betas tauxs tauys tauzs is ls1) as [r|] eqn:Er; [|discriminate H]. cbn [rbind] in H. injection H as <-. destruct (IH ls1 r Er) as [A B]. cbn [fst snd].
      split; [constructor; [cbn; auto|exact A]|]. intros x Hx. apply B in Hx. destruct ls as [|y ls]; cbn in R; injection R as <- <-; [destruct Hx|right; exact Hx].
  Qed.

  Lemma readline_in : forall ls, (In (fst (readline ls)) ls \/ fst (readline ls) = []) /\ forall l, In l (snd (readline ls)) -> In l ls.
  Proof. intros [|x ls]; cbn; auto. Qed.

  Lemma zone_written : forall l ls zr, import_zone l ls = Ok zr -> written_zone ls (fst zr) /\ forall x, In x (snd zr) -> In x ls.
  Proof.
    intros l ls zr H. unfold import_zone in H. destruct (title_of l) as [title|]; [|discriminate H]. cbn [rbind] in H.
    assert (RL : forall m, exists x r, readline m = (x, r) /\ (In x m \/ x = []) /\ forall y, In y r -> In y m).
    { intros m. exists (fst (readline m)), (snd (readline m)). split; [apply surjective_pairing|]. apply readline_in. }
    assert (incl_tr : forall (a b c : list str), (forall y, In y b -> In y a) -> (forall y, In y c -> In y b) -> forall y, In y c -> In y a) by auto.
    destruct (RL ls) as (l1 & r1 & E1 & _ & S1). rewrite E1 in H. cbv iota in H. destruct (import_count l1) as [nc|]; [|discriminate H]. cbn [rbind] in H.
    destruct (RL r1) as (l2 & r2 & E2 & _ & S2). rewrite E2 in H. cbv iota in H. destruct (import_count l2) as [ec|]; [|discriminate H]. cbn [rbind] in H.
    destruct (RL r2) as (l3 & r3 & E3 & _ & S3). rewrite E3 in H. cbn [snd] in H. destruct (RL r3) as (l4 & r4 & E4 & _ & S4). rewrite E4 in H. cbn [snd] in H.
    destruct (RL r4) as (l5 & r5 & E5 & _ & S5). rewrite E5 in H. cbn [snd] in H.
    destruct (RL r5) as (lx & r6 & E6 & Ix & S6). rewrite E6 in H. destruct (RL r6) as (ly & r7 & E7 & Iy & S7). rewrite E7 in H. destruct (RL r7) as (lz & r8 & E8 & Iz & S8). rewrite E8 in H.
    cbv zeta iota in H. unfold check in H. destruct (len_is (split_ws lx) nc) eqn:Cx; [|discriminate H]. destruct (len_is (split_ws ly) nc) eqn:Cy; [|discriminate H].
    destruct (len_is (split_ws lz) nc) eqn:Cz; [|discriminate H]. cbn [rbind] in H. destruct (import_nodes (split_ws lx) (split_ws ly) (split_ws lz) nc) as [pts|] eqn:Ep; [|discriminate H]. cbn [rbind] in H.
    destruct (RL r8) as (m1 & q1 & F1 & _ & T1). rewrite F1 in H. cbn [snd] in H. destruct (RL q1) as (m2 & q2 & F2 & _ & T2). rewrite F2 in H. cbn [snd] in H.
    destruct (RL q2) as (m3 & q3 & F3 & _ & T3). rewrite F3 in H. cbn [snd] in H.
    destruct (RL q3) as (lh & q4 & F4 & Ih & T4). rewrite F4 in H. destruct (RL q4) as (lb & q5 & F5 & Ib & T5). rewrite F5 in H. destruct (RL q5) as (l7 & q6 & F6 & I7 & T6). rewrite F6 in H.
    destruct (RL q6) as (l8 & q7 & F7 & I8 & T7). rewrite F7 in H. destruct (RL q7) as (l9 & q8 & F8 & I9 & T8). rewrite F8 in H. cbv iota in H.
    destruct (len_is (split_ws lb) ec) eqn:Cb; [|discriminate H]. destruct (len_is (split_ws lh) ec) eqn:Ch; [|discriminate H]. destruct (len_is (split_ws l7) ec) eqn:C7; [|discriminate H].
    destruct (len_is (split_ws l8) ec) eqn:C8; [|discriminate H]. destruct (len_is (split_ws l9) ec) eqn:C9; [|discriminate H]. cbn [rbind] in H.
    match type of H with rbind ?m _ = _ => destruct m as [fr|] eqn:Ef; [|discriminate H] end. cbn [rbind] in H. injection H as <-. cbn [fst snd].
    destruct (faces_written _ _ _ _ _ _ _ _ _ Ef) as [A B]. apply nodes_written in Ep.
    split; [|auto 20].
    exists lx, ly, lz, lh, lb, l7, l8, l9. split.
    - intros k Hk. cbn in Hk. repeat (destruct Hk as [<-|Hk]); try (destruct Hk);
        match goal with K : In ?x _ \/ ?x = [] |- In ?x _ \/ _ => destruct K as [K|K]; [left; auto 30|right; exact K] end.
    - cbn [iz_pts iz_faces].
      repeat split; eapply column; try eassumption; eapply f2_map; try exact Ep; try exact A; cbn; tauto.
  Qed.

  Lemma loop_written : forall fuel ls zs, import_loop fuel ls = Ok zs -> Forall (written_zone ls) zs.
  Proof.
    assert (Up : forall l ls z, written_zone ls z -> written_zone (l :: ls) z).
    { intros l ls z (lx & ly & lz & lh & lb & l7 & l8 & l9 & I & R). exists lx, ly, lz, lh, lb, l7, l8, l9. split; [|exact R]. intros k Hk. destruct (I k Hk) as [K|K]; [left; right; exact K|right; exact K]. }
    assert (Sub : forall ls ls' z, (forall x, In x ls -> In x ls') -> written_zone ls z -> written_zone ls' z).
    { intros ls ls' z S (lx & ly & lz & lh & lb & l7 & l8 & l9 & I & R). exists lx, ly, lz, lh, lb, l7, l8, l9. split; [|exact R]. intros k Hk. destruct (I k Hk) as [K|K]; [left; auto|right; exact K]. }
    induction fuel as [|k IH]; intros ls zs H; cbn [import_loop] in H; [discriminate H|]. destruct ls as [|l ls]; [injection H as <-; constructor|].
    assert (Skip : import_loop k ls = Ok zs -> Forall (written_zone (l :: ls)) zs) by (intros E; apply IH in E; eapply Forall_impl; [|exact E]; apply Up).
    destruct (contains (lit "EXPORT_MODE") l); [auto|]. destruct (contains (lit "TITLE") l); [auto|]. destruct (contains (lit "VARIABLES") l); [auto|].
    destruct (contains (lit "ZONE T=") l); [|auto]. destruct (import_zone l ls) as [zr|] eqn:Ez; [|discriminate H]. cbn [rbind] in H.
    destruct (import_loop k (snd zr)) as [rest|] eqn:Er; [|discriminate H]. cbn [rbind] in H. injection H as <-. destruct (zone_written _ _ _ Ez) as [A B].
    constructor; [apply Up; exact A|]. apply IH in Er. eapply Forall_impl; [|exact Er]. intros z. apply Sub. intros x Hx. right. apply B. exact Hx.
  Qed.

  Theorem import_written : forall text zs, import_grid text = Ok zs -> Forall (written_zone (file_lines text)) zs.
  Proof. intros text zs H. exact (loop_written _ _ _ H). Qed.
End Words.
