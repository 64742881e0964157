(** Proofs about the line loops of the converters of ANSYS files. *)

From Coq Require Import ZArith Bool List Lia String Ascii Sorted.
From Verif Require Import Py PyLemmas TextLemmas Convert Ansys AnsysSpec AnsysText.
Import ListNotations.
Open Scope list_scope.

Lemma plain_meta : forall l, plain l -> is_str_meta l = false.
Proof.
  intros l (A & B & C). unfold is_str_meta, is_str_title, is_str_variables, is_str_zone.
  apply contains_not in A. apply contains_not in B. apply contains_not in C. rewrite A, B, C. reflexivity.
Qed.

Lemma occurs_true : forall sub s, occurs sub s -> contains sub s = true.
Proof. intros. apply contains_occurs. auto. Qed.

Lemma head_meta : forall l, good_head l -> is_str_meta l = true /\ (is_str_title l = true \/ is_str_title l = false /\ is_str_variables l = true).
Proof.
  intros l H. unfold is_str_meta, is_str_title, is_str_variables, is_str_zone.
  destruct (contains (lit "TITLE") l) eqn:T; [split; auto|].
  destruct H as [H|H]; apply occurs_true in H; [congruence|]. rewrite H. split; auto.
Qed.

Lemma block_meta : forall b, good_block b ->
  is_str_meta (b_head b) = true /\ is_str_title (b_head b) = false /\ is_str_variables (b_head b) = false /\ is_str_zone (b_head b) = true /\
  zone_counts (b_head b) = Ok (List.length (b_nodes b), List.length (b_elems b)).
Proof.
  intros b (Z & T & V & _ & D & _). unfold is_str_meta, is_str_title, is_str_variables, is_str_zone.
  apply occurs_true in Z. apply contains_not in T. apply contains_not in V. rewrite Z, T, V.
  refine (conj eq_refl (conj eq_refl (conj eq_refl (conj eq_refl _)))). apply counts_ok. auto.
Qed.

(* ================================================================ *)
(** ** filter_zones *)

Lemma zones_elems : forall zs es r o, Forall plain es -> filter_zones zs 0 0 r = Ok o -> filter_zones zs 0 (List.length es) (es ++ r) = Ok (es ++ o).
Proof.
  intros zs es r o H Hr. induction es as [|l es IH]; auto. inversion H; subst.
  cbn [List.length app filter_zones]. rewrite (plain_meta l) by auto. rewrite IH by auto. reflexivity.
Qed.

Lemma zones_nodes : forall zs ns e r o, Forall plain ns -> filter_zones zs 0 e r = Ok o -> filter_zones zs (List.length ns) e (ns ++ r) = Ok (ns ++ o).
Proof.
  intros zs ns e r o H Hr. induction ns as [|l ns IH]; auto. inversion H; subst.
  cbn [List.length app filter_zones]. rewrite (plain_meta l) by auto. rewrite IH by auto. reflexivity.
Qed.

Lemma zones_skip : forall zs ls r, Forall plain ls -> filter_zones zs 0 0 (ls ++ r) = filter_zones zs 0 0 r.
Proof.
  intros zs ls r H. induction ls as [|l ls IH]; auto. inversion H; subst.
  cbn [app filter_zones]. rewrite (plain_meta l) by auto. auto.
Qed.

Lemma extract_ok : forall zs h name, names_zone h name -> is_str_zone h = true -> Forall (fun z => ~ In dquote z) zs ->
  is_str_zone_to_extract zs h = true <-> In name zs.
Proof.
  intros zs h name H Hz Q. unfold is_str_zone_to_extract. rewrite Hz. cbn [negb]. rewrite existsb_exists, Forall_forall in *. split.
  - intros (z & I & E). apply (mark_ok h name z H (Q z I)) in E. subst. auto.
  - intros I. exists name. split; auto. apply (mark_ok h name name H (Q _ I)). auto.
Qed.

Theorem filter_zones_ok : forall zs ps, Forall (fun z => ~ In dquote z) zs -> Forall good_piece ps ->
  exists qs, selected zs ps qs /\ filter_zones zs 0 0 (file_of ps) = Ok (file_of qs).
Proof.
  intros zs ps Q H. induction ps as [|p ps IH].
  - exists []. split; [constructor|reflexivity].
  - inversion H; subst. destruct (IH H3) as (qs & S & E). destruct p as [l|b]; cbn [good_piece] in H2.
    + exists (Head l :: qs). split; [constructor; auto|]. cbn [file_of flat_map piece_lines app filter_zones].
      destruct (head_meta l H2) as [-> [T|[T V]]]; rewrite T; try rewrite V; fold (file_of ps); rewrite E; reflexivity.
    + destruct (block_meta b H2) as (M & T & V & Z & C). pose proof H2 as G. destruct G as (_ & _ & _ & N & _ & Pn & Pe).
      unfold file_of. cbn [flat_map piece_lines]. fold (file_of ps). unfold block_lines. cbn [app filter_zones]. rewrite M, T, V, C. cbn [Nat.ltb Nat.leb orb rbind fst snd].
      pose proof (extract_ok zs _ _ N Z Q) as X. destruct (is_str_zone_to_extract zs (b_head b)).
      * exists (Data b :: qs). split; [constructor; auto; apply X; auto|].
        rewrite <- app_assoc. erewrite zones_nodes; [|auto|apply zones_elems; [auto|exact E]]. cbn [rbind flat_map piece_lines file_of block_lines].
        unfold block_lines. cbn [app]. rewrite <- app_assoc. reflexivity.
      * exists qs. split; [constructor; auto; intros I; apply X in I; discriminate|]. rewrite <- app_assoc, !zones_skip; auto.
Qed.

(** [selected] is a function. *)
Lemma selected_fun : forall zs ps q1 q2, selected zs ps q1 -> selected zs ps q2 -> q1 = q2.
Proof.
  intros zs ps. induction ps as [|p ps IH]; intros q1 q2 A B; inversion A; subst; inversion B; subst; auto; try contradiction; f_equal; auto.
Qed.

(* ================================================================ *)
(** ** filter_variables *)

Lemma vars_elems : forall sn m es r o, Forall plain es -> filter_variables sn m 0 0 r = Ok o ->
  filter_variables sn m 0 (List.length es) (es ++ r) = Ok (es ++ o).
Proof.
  intros sn m es r o H Hr. induction es as [|l es IH]; auto. inversion H; subst.
  cbn [List.length app filter_variables]. rewrite (plain_meta l) by auto. rewrite IH by auto. reflexivity.
Qed.

Lemma vars_nodes : forall sn m ns e r o, Forall plain ns -> filter_variables sn (Some m) 0 e r = Ok o ->
  filter_variables sn (Some m) (List.length ns) e (ns ++ r) = Ok (map (fun l => written_row (filter_with_mask (split_ws l) m)) ns ++ o).
Proof.
  intros sn m ns e r o H Hr. induction ns as [|l ns IH]; auto. inversion H; subst.
  cbn [List.length app filter_variables map]. rewrite (plain_meta l) by auto. rewrite IH by auto. reflexivity.
Qed.

Lemma vars_blocks : forall sn m bs, Forall good_block bs ->
  filter_variables sn (Some m) 0 0 (flat_map block_lines bs) =
  Ok (flat_map block_lines (map (with_rows (fun l => written_row (filter_with_mask (split_ws l) m))) bs)).
Proof.
  intros sn m bs H. induction bs as [|b bs IH]; auto. inversion H; subst.
  destruct (block_meta b H2) as (M & T & V & Z & C). destruct H2 as (_ & _ & _ & _ & _ & Pn & Pe).
  cbn [flat_map map]. unfold block_lines at 1 3. cbn [app filter_variables]. rewrite M, T, V, C. cbn [Nat.ltb Nat.leb orb rbind fst snd].
  rewrite <- app_assoc. erewrite vars_nodes; [|auto|apply vars_elems; [auto|apply IH; auto]].
  cbn [rbind with_rows b_head b_nodes b_elems]. rewrite <- app_assoc. reflexivity.
Qed.

Lemma with_rows_ext : forall f g b, (forall l, f l = g l) -> with_rows f b = with_rows g b.
Proof. intros f g b H. unfold with_rows. f_equal. apply map_ext. auto. Qed.

Theorem filter_variables_ok : forall snames titles vline raws bs,
  Forall head_title titles -> variables_line vline raws -> Forall good_block bs ->
  let fnames := map (remove_char dquote) raws in
  exists cols names, columns snames fnames cols /\ Forall2 (last_answer snames) (pick cols fnames) names /\
    filter_variables snames None 0 0 (titles ++ vline :: flat_map block_lines bs) =
    Ok (titles ++ written_variables names :: flat_map block_lines (map (with_rows (fun l => written_row (pick cols (split_ws l)))) bs)).
Proof.
  intros snames titles vline raws bs Ht Hv Hb fnames.
  exists (places 0%nat (snd (variables_names_and_mask fnames snames))),
    (filter_with_mask (fst (variables_names_and_mask fnames snames)) (snd (variables_names_and_mask fnames snames))).
  split; [apply mask_columns|]. split; [apply names_ok|].
  induction titles as [|l titles IH].
  - cbn [app filter_variables]. pose proof (header_names_ok _ _ Hv) as E. destruct Hv as (V & T & _).
    unfold is_str_meta, is_str_title, is_str_variables. apply occurs_true in V. apply contains_not in T. rewrite V, T. cbn [Nat.ltb Nat.leb orb rbind].
    rewrite E. cbn [rbind]. fold fnames. unfold variables_names_and_mask at 1. rewrite vars_blocks by auto. cbn [rbind].
    assert (X : forall m, map (with_rows (fun l => written_row (filter_with_mask (split_ws l) m))) bs = map (with_rows (fun l => written_row (pick (places 0%nat m) (split_ws l)))) bs).
    { intros m. apply map_ext. intros b. apply with_rows_ext. intros l. rewrite mask_pick. reflexivity. }
    rewrite X. reflexivity.
  - inversion Ht; subst. cbn [app filter_variables]. unfold is_str_meta, is_str_title at 1 2. rewrite (occurs_true _ _ H1).
    cbn [Nat.ltb Nat.leb orb rbind]. rewrite IH by auto. reflexivity.
Qed.
