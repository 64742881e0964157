(** Proofs about merging, heat transfer and loading of ANSYS files. *)

From Coq Require Import ZArith Reals Bool List Lia String Ascii Permutation.
From Verif Require Import Py PyLemmas TextLemmas Geom Convert ConvertSpec ConvertProofs Ansys AnsysSpec AnsysText AnsysProofs.
Import ListNotations.
Open Scope list_scope.
Open Scope nat_scope.

(* ================================================================ *)
(** ** merge_fensap_drop3d_adiabatic *)

(** Items of explicit lists. *)
Ltac gets := repeat match goal with
  | |- context [py_get ?l Z0] => rewrite (py_get_nat _ l 0 _ eq_refl : py_get l Z0 = _)
  | |- context [py_get ?l (Zpos ?p)] => let k := eval compute in (Pos.to_nat p) in rewrite (py_get_nat _ l k _ eq_refl : py_get l (Zpos p) = _)
  end.

Lemma four_words : forall l, words 4 l -> exists a b c d r, split_ws l = a :: b :: c :: d :: r.
Proof.
  intros l H. unfold words in H. destruct (split_ws l) as [|a [|b [|c [|d r]]]]; cbn in H; try lia. eauto 8.
Qed.

Lemma eight_words : forall l, words 8 l -> exists a b c d e f g h r, split_ws l = a :: b :: c :: d :: e :: f :: g :: h :: r.
Proof.
  intros l H. unfold words in H. destruct (split_ws l) as [|a [|b [|c [|d [|e [|f [|g [|h r]]]]]]]]; cbn in H; try lia. eauto 12.
Qed.

Lemma merge_fields_ok : forall f d a, words 8 f -> words 4 d -> words 4 a ->
  exists fields, merge_fields (split_ws f) (split_ws d) (split_ws a) = Ok fields /\ merged_row f d a (join (lit " ") fields ++ [nl]).
Proof.
  intros f d a Hf Hd Ha.
  destruct (eight_words f Hf) as (f0 & f1 & f2 & f3 & f4 & f5 & f6 & f7 & fr & Ef).
  destruct (four_words d Hd) as (d0 & d1 & d2 & d3 & dr & Ed). destruct (four_words a Ha) as (a0 & a1 & a2 & a3 & ar & Ea).
  exists [f0; f1; f2; f7; d3; f4; f5; f6; f3; a3]. split.
  - rewrite Ef, Ed, Ea. unfold merge_fields.
    gets. cbn [rbind].
    reflexivity.
  - exists f0, f1, f2, f3, f4, f5, f6, f7, fr, d0, d1, d2, d3, dr, a0, a1, a2, a3, ar. repeat (split; [assumption|]). reflexivity.
Qed.

Lemma merge_elems : forall es ds al r rd ra o, Forall plain es -> List.length ds = List.length es -> List.length al = List.length es ->
  merge_files 0 0 r rd ra = Ok o -> merge_files 0 (List.length es) (es ++ r) (ds ++ rd) (al ++ ra) = Ok (es ++ o).
Proof.
  induction es as [|l es IH]; intros ds al r rd ra o H Ld La E.
  - destruct ds; [|discriminate]. destruct al; [|discriminate]. exact E.
  - destruct ds as [|d ds]; [discriminate|]. destruct al as [|a al]; [discriminate|]. inversion H; subst.
    cbn [List.length app merge_files readline]. rewrite (plain_meta l) by auto. rewrite (IH ds al r rd ra o) by auto. reflexivity.
Qed.

Lemma merge_nodes : forall ns ds al e r rd ra o, Forall plain ns -> List.length ds = List.length ns -> List.length al = List.length ns ->
  Forall (words 8) ns -> Forall (words 4) ds -> Forall (words 4) al ->
  merge_files 0 e r rd ra = Ok o ->
  exists ms, zip4 merged_row ns ds al ms /\ merge_files (List.length ns) e (ns ++ r) (ds ++ rd) (al ++ ra) = Ok (ms ++ o).
Proof.
  induction ns as [|l ns IH]; intros ds al e r rd ra o H Ld La Wn Wd Wa E.
  - destruct ds; [|discriminate]. destruct al; [|discriminate]. exists []. split; [constructor|exact E].
  - destruct ds as [|d ds]; [discriminate|]. destruct al as [|a al]; [discriminate|]. inversion H; subst. inversion Wn; subst. inversion Wd; subst. inversion Wa; subst.
    destruct (IH ds al e r rd ra o) as (ms & Z & M); auto.
    destruct (merge_fields_ok l d a) as (fs & F & R); auto.
    exists ((join (lit " ") fs ++ [nl]) :: ms). split; [constructor; auto|].
    cbn [List.length app merge_files readline]. rewrite (plain_meta l) by auto. rewrite F. cbn [rbind]. rewrite M. reflexivity.
Qed.

Lemma merge_blocks : forall bs ds al, Forall good_block bs -> Forall2 same_size bs ds -> Forall2 same_size bs al ->
  Forall (fun b => Forall (words 8) (b_nodes b)) bs -> Forall (fun b => Forall (words 4) (b_nodes b)) ds -> Forall (fun b => Forall (words 4) (b_nodes b)) al ->
  exists ms, zip4 merged_block bs ds al ms /\
    merge_files 0 0 (flat_map block_lines bs) (flat_map block_lines ds) (flat_map block_lines al) = Ok (flat_map block_lines ms).
Proof.
  induction bs as [|b bs IH]; intros ds al H Sd Sa Wb Wd Wa.
  - inversion Sd; subst. inversion Sa; subst. exists []. split; [constructor|reflexivity].
  - inversion Sd as [|? d ? ds' [Dn De] Sd']; subst. inversion Sa as [|? a ? al' [An Ae] Sa']; subst.
    inversion H; subst. inversion Wb; subst. inversion Wd; subst. inversion Wa; subst.
    destruct (IH ds' al') as (ms & Z & M); auto.
    destruct (block_meta b H2) as (Me & T & V & _ & C). destruct H2 as (_ & _ & _ & _ & _ & Pn & Pe).
    pose proof (merge_elems (b_elems b) (b_elems d) (b_elems a) (flat_map block_lines bs) (flat_map block_lines ds') (flat_map block_lines al') _ Pe (eq_sym De) (eq_sym Ae) M) as Q.
    destruct (merge_nodes (b_nodes b) (b_nodes d) (b_nodes a) _ _ _ _ _ Pn (eq_sym Dn) (eq_sym An) H4 H6 H8 Q) as (rows & Zr & Mr).
    exists (Block (b_name b) (b_head b) rows (b_elems b) :: ms). split.
    + constructor; auto. split; [reflexivity|]. split; [reflexivity|]. split; [reflexivity|]. exact Zr.
    + cbn [flat_map]. unfold block_lines at 1 3 5 7. cbn [app merge_files readline b_head b_nodes b_elems]. rewrite Me, T, V, C. cbn [Nat.ltb Nat.leb orb rbind fst snd].
      rewrite <- !app_assoc. rewrite Mr. reflexivity.
Qed.

Theorem merge_ok : forall titles vline bs dheads ds aheads al,
  Forall head_title titles -> occurs (lit "VARIABLES") vline -> ~ occurs (lit "TITLE") vline -> Forall good_block bs ->
  List.length dheads = S (List.length titles) -> List.length aheads = S (List.length titles) ->
  Forall2 same_size bs ds -> Forall2 same_size bs al ->
  Forall (fun b => Forall (words 8) (b_nodes b)) bs -> Forall (fun b => Forall (words 4) (b_nodes b)) ds -> Forall (fun b => Forall (words 4) (b_nodes b)) al ->
  exists ms, zip4 merged_block bs ds al ms /\
    merge_files 0 0 (titles ++ vline :: flat_map block_lines bs) (dheads ++ flat_map block_lines ds) (aheads ++ flat_map block_lines al) =
    Ok (titles ++ header_of merged_names :: flat_map block_lines ms).
Proof.
  intros titles vline bs dheads ds aheads al Ht Hv Nv Hb Ld La Sd Sa Wb Wd Wa.
  destruct (merge_blocks bs ds al Hb Sd Sa Wb Wd Wa) as (ms & Z & M). exists ms. split; auto.
  revert dheads aheads Ld La. induction titles as [|l titles IH]; intros dheads aheads Ld La.
  - destruct dheads as [|d [|]]; try discriminate. destruct aheads as [|a [|]]; try discriminate.
    cbn [app merge_files readline]. unfold is_str_meta, is_str_title, is_str_variables.
    rewrite (occurs_true _ _ Hv), (proj2 (contains_not _ _) Nv). cbn [Nat.ltb Nat.leb orb rbind]. rewrite M. reflexivity.
  - destruct dheads as [|d dheads]; try discriminate. destruct aheads as [|a aheads]; try discriminate. inversion Ht; subst.
    cbn [app merge_files readline]. unfold is_str_meta, is_str_title at 1 2. rewrite (occurs_true _ _ H1). cbn [Nat.ltb Nat.leb orb rbind].
    rewrite IH; auto.
Qed.

(* ================================================================ *)
(** ** calculate_htc_recovery_factor *)

Section Htc.
  Variables (fl : str -> res R) (fmt : R -> str) (t v cp : R).
  Hypothesis Hv : v <> 0%R.
  Hypothesis Hcp : cp <> 0%R.

  Lemma htc_row_ok : forall l, htc_readable fl l -> exists fields, htc_row fl fmt t v cp (split_ws l) = Ok fields /\
    htc_written fl fmt t v cp l (join (lit " ") fields ++ [nl]).
  Proof.
    intros l (x & y & z & w3 & beta & tx & ty & tz & w8 & w9 & flux & ts & stat & E & E3 & E8 & E9 & D).
    destruct (htc_ok t v cp flux ts stat Hv Hcp D) as (htc & rf & Eh & Er & Ee).
    exists [x; y; z; fmt htc; beta; tx; ty; tz; fmt rf]. split.
    - rewrite E. unfold htc_row.
      gets.
      cbn [rbind]. rewrite E3. cbn [rbind]. rewrite E8. cbn [rbind]. rewrite E9. cbn [rbind]. rewrite Eh. reflexivity.
    - exists x, y, z, w3, beta, tx, ty, tz, w8, w9, flux, ts, stat, htc, rf. repeat (split; [assumption|]). reflexivity.
  Qed.

  Lemma htc_elems : forall es r o, Forall plain es -> calculate_htc fl fmt t v cp 0 0 r = Ok o ->
    calculate_htc fl fmt t v cp 0 (List.length es) (es ++ r) = Ok (es ++ o).
  Proof.
    intros es r o H Hr. induction es as [|l es IH]; auto. inversion H; subst.
    cbn [List.length app calculate_htc]. rewrite (plain_meta l) by auto. rewrite IH by auto. reflexivity.
  Qed.

  Lemma htc_nodes : forall ns e r o, Forall plain ns -> Forall (htc_readable fl) ns -> calculate_htc fl fmt t v cp 0 e r = Ok o ->
    exists ms, Forall2 (htc_written fl fmt t v cp) ns ms /\ calculate_htc fl fmt t v cp (List.length ns) e (ns ++ r) = Ok (ms ++ o).
  Proof.
    induction ns as [|l ns IH]; intros e r o H W E.
    - exists []. split; [constructor|exact E].
    - inversion H; subst. inversion W; subst. destruct (IH e r o) as (ms & F & M); auto. destruct (htc_row_ok l) as (fs & R & X); auto.
      exists ((join (lit " ") fs ++ [nl]) :: ms). split; [constructor; auto|].
      cbn [List.length app calculate_htc]. rewrite (plain_meta l) by auto. rewrite R. cbn [rbind]. rewrite M. reflexivity.
  Qed.

  Lemma htc_blocks : forall bs, Forall good_block bs -> Forall (fun b => Forall (htc_readable fl) (b_nodes b)) bs ->
    exists ms, Forall2 (rows_related (htc_written fl fmt t v cp)) bs ms /\ calculate_htc fl fmt t v cp 0 0 (flat_map block_lines bs) = Ok (flat_map block_lines ms).
  Proof.
    induction bs as [|b bs IH]; intros H W.
    - exists []. split; [constructor|reflexivity].
    - inversion H; subst. inversion W; subst. destruct IH as (ms & F & M); auto.
      destruct (block_meta b H2) as (Me & T & V & _ & C). destruct H2 as (_ & _ & _ & _ & _ & Pn & Pe).
      destruct (htc_nodes (b_nodes b) (List.length (b_elems b)) (b_elems b ++ flat_map block_lines bs) (b_elems b ++ flat_map block_lines ms)) as (rows & Fr & Mr); auto.
      { apply htc_elems; auto. }
      exists (Block (b_name b) (b_head b) rows (b_elems b) :: ms). split.
      + constructor; auto. split; [reflexivity|]. split; [reflexivity|]. split; [reflexivity|]. exact Fr.
      + cbn [flat_map]. unfold block_lines at 1 3. cbn [app calculate_htc b_head b_nodes b_elems]. rewrite Me, T, V, C. cbn [Nat.ltb Nat.leb orb rbind fst snd].
        rewrite <- !app_assoc. rewrite Mr. reflexivity.
  Qed.

  Theorem htc_file_ok : forall titles vline bs,
    Forall head_title titles -> occurs (lit "VARIABLES") vline -> ~ occurs (lit "TITLE") vline -> Forall good_block bs ->
    Forall (fun b => Forall (htc_readable fl) (b_nodes b)) bs ->
    exists ms, Forall2 (rows_related (htc_written fl fmt t v cp)) bs ms /\
      calculate_htc fl fmt t v cp 0 0 (titles ++ vline :: flat_map block_lines bs) = Ok (titles ++ header_of htc_names :: flat_map block_lines ms).
  Proof.
    intros titles vline bs Ht Vl Nv Hb W. destruct (htc_blocks bs Hb W) as (ms & F & M). exists ms. split; auto.
    induction titles as [|l titles IH].
    - cbn [app calculate_htc]. unfold is_str_meta, is_str_title, is_str_variables.
      rewrite (occurs_true _ _ Vl), (proj2 (contains_not _ _) Nv). cbn [Nat.ltb Nat.leb orb rbind]. rewrite M. reflexivity.
    - inversion Ht; subst. cbn [app calculate_htc]. unfold is_str_meta, is_str_title at 1 2. rewrite (occurs_true _ _ H1). cbn [Nat.ltb Nat.leb orb rbind].
      rewrite IH; auto.
  Qed.
End Htc.

(* ================================================================ *)
(** ** LoadNodesData *)

Section Load.
  Variables (fl : str -> res R) (rv : bool).

  Lemma parse_ok : forall s v, coordinate fl s v -> parse_coordinate fl s = Ok v.
  Proof. intros s v [H|[H ->]]; unfold parse_coordinate; rewrite H; reflexivity. Qed.

  Lemma node_row_ok : forall l n, node_from fl l n -> node_row fl l = Ok n.
  Proof.
    intros l [[x y z] [h b tx ty tz r]] (sx & sy & sz & sh & sb & stx & sty & stz & sr & E & Hx & Hy & Hz & Hh & Hb & Htx & Hty & Htz & Hr).
    cbn in *. unfold node_row. rewrite E, (parse_ok _ _ Hx). cbn [rbind]. rewrite (parse_ok _ _ Hy). cbn [rbind]. rewrite (parse_ok _ _ Hz). cbn [rbind].
    rewrite Hh. cbn [rbind]. rewrite Hb. cbn [rbind]. rewrite Htx. cbn [rbind]. rewrite Hty. cbn [rbind]. rewrite Htz. cbn [rbind]. rewrite Hr. reflexivity.
  Qed.

  Lemma corner_ok : forall n s k, py_int s = Ok (Z.of_nat k + 1)%Z -> k < n -> corner_place n s = Ok k.
  Proof.
    intros n s k H L. unfold corner_place. rewrite H. cbn [rbind]. replace (Z.of_nat k + 1 - 1)%Z with (Z.of_nat k) by lia.
    rewrite py_index_nonneg by lia. rewrite Nat2Z.id. reflexivity.
  Qed.

  Lemma element_ok : forall n l q, quad_from n l q -> element_row rv n l = Ok (quad_faces rv q).
  Proof.
    intros n l [[[a b] c] d] [L F]. unfold element_row. destruct (split_ws l) as [|s1 [|s2 [|s3 [|s4 [|]]]]]; try discriminate.
    cbn [ConvertSpec.corners] in F. inversion F as [|? ? ? ? [I1 L1] F1]; subst. inversion F1 as [|? ? ? ? [I2 L2] F2]; subst.
    inversion F2 as [|? ? ? ? [I3 L3] F3]; subst. inversion F3 as [|? ? ? ? [I4 L4] F4]; subst.
    rewrite (corner_ok n s1 a), (corner_ok n s2 b), (corner_ok n s3 c), (corner_ok n s4 d) by auto. reflexivity.
  Qed.

  Lemma faces_corners : forall q, Forall (fun t => incl (corners3 t) (corners q)) (quad_faces rv q).
  Proof.
    intros [[[a b] c] d].
    assert (T : forall x y z, In x [a; b; c; d] -> In y [a; b; c; d] -> In z [a; b; c; d] -> incl (corners3 (x, y, z)) (corners (a, b, c, d))).
    { intros x y z Hx Hy Hz n [<-|[<-|[<-|[]]]]; assumption. }
    assert (Ia : In a [a; b; c; d]) by (left; reflexivity). assert (Ib : In b [a; b; c; d]) by (right; left; reflexivity).
    assert (Ic : In c [a; b; c; d]) by (do 2 right; left; reflexivity). assert (Id : In d [a; b; c; d]) by (do 3 right; left; reflexivity).
    unfold quad_faces. destruct rv.
    - destruct (Nat.eqb d c), (Nat.eqb d b), (Nat.eqb d a), (Nat.eqb c b), (Nat.eqb c a), (Nat.eqb b a); repeat (apply Forall_cons; [apply T; assumption|]); apply Forall_nil.
    - destruct (Nat.eqb a b), (Nat.eqb a c), (Nat.eqb a d), (Nat.eqb b c), (Nat.eqb b d), (Nat.eqb c d); repeat (apply Forall_cons; [apply T; assumption|]); apply Forall_nil.
  Qed.

  Lemma split_quad_ok : forall q, split_quad rv q (quad_faces rv q).
  Proof.
    intros q. split; [intros H; apply quad_four; auto|]. split; [intros H; apply quad_three; auto|]. apply faces_corners.
  Qed.

  Lemma load_nodes : forall ls ns z zs e r, Forall plain ls -> Forall2 (node_from fl) ls ns ->
    load_nodes_data fl rv (List.length ls) e (z :: zs) (ls ++ r) =
    load_nodes_data fl rv 0 e (FZone (fz_title z) (fz_nodes z ++ ns) (fz_faces z) :: zs) r.
  Proof.
    induction ls as [|l ls IH]; intros ns z zs e r H F.
    - inversion F; subst. rewrite app_nil_r. destruct z; reflexivity.
    - inversion F as [|? n ? ns' N F']; subst. inversion H as [|? ? P P']; subst. destruct P as (P1 & P2 & P3).
      cbn [List.length app load_nodes_data]. rewrite (proj2 (contains_not _ _) P1), (proj2 (contains_not _ _) P2), (proj2 (contains_not _ _) P3).
      rewrite (node_row_ok l n) by auto. cbn [rbind last_zone]. rewrite (IH ns') by auto. cbn [fz_title fz_nodes fz_faces]. rewrite <- app_assoc. reflexivity.
  Qed.

  Lemma load_elems : forall ls qs z zs r, Forall plain ls -> Forall2 (quad_from (List.length (fz_nodes z))) ls qs ->
    load_nodes_data fl rv 0 (List.length ls) (z :: zs) (ls ++ r) =
    load_nodes_data fl rv 0 0 (FZone (fz_title z) (fz_nodes z) (fz_faces z ++ flat_map (quad_faces rv) qs) :: zs) r.
  Proof.
    induction ls as [|l ls IH]; intros qs z zs r H F.
    - inversion F; subst. cbn. rewrite app_nil_r. destruct z; reflexivity.
    - inversion F as [|? q ? qs' N F']; subst. inversion H as [|? ? P P']; subst. destruct P as (P1 & P2 & P3).
      cbn [List.length app load_nodes_data]. rewrite (proj2 (contains_not _ _) P1), (proj2 (contains_not _ _) P2), (proj2 (contains_not _ _) P3).
      cbn [rbind last_zone]. rewrite (element_ok _ l q) by auto. cbn [rbind]. rewrite (IH qs') by auto. cbn [fz_title fz_nodes fz_faces flat_map]. rewrite <- app_assoc. reflexivity.
  Qed.

  Lemma exists_list : forall A B (P : A -> B -> Prop) l, Forall (fun x => exists y, P x y) l -> exists l', Forall2 P l l'.
  Proof.
    intros A B P l. induction l as [|x l IH]; intros H; [exists []; constructor|]. inversion H as [|? ? (y & Hy) H']; subst.
    destruct (IH H') as (l' & F). exists (y :: l'). constructor; auto.
  Qed.

  Lemma flat_map_groups : forall qs, exists groups, Forall2 (split_quad rv) qs groups /\ flat_map (quad_faces rv) qs = List.concat groups.
  Proof.
    intros qs. exists (map (quad_faces rv) qs). split; [|apply flat_map_concat_map].
    induction qs; constructor; auto. apply split_quad_ok.
  Qed.

  Theorem load_nodes_ok : forall ps, Forall good_piece ps -> Forall (readable fl) (blocks_of ps) ->
    exists zs, load_nodes_data fl rv 0 0 [] (file_of ps) = Ok zs /\ Forall2 (loaded_zone fl rv) (blocks_of ps) zs.
  Proof.
    intros ps H W.
    assert (G : forall ps acc, Forall good_piece ps -> Forall (readable fl) (blocks_of ps) ->
      exists zs, load_nodes_data fl rv 0 0 acc (file_of ps) = Ok (rev acc ++ zs) /\ Forall2 (loaded_zone fl rv) (blocks_of ps) zs).
    { clear ps H W. induction ps as [|p ps IH]; intros acc H W.
      - exists []. split; [rewrite app_nil_r; reflexivity|constructor].
      - inversion H as [|? ? Gp Gs]; subst. destruct p as [l|b]; cbn [good_piece] in Gp.
        + destruct (IH acc Gs W) as (zs & E & F). exists zs. split; auto. unfold file_of. cbn [flat_map piece_lines app load_nodes_data]. fold (file_of ps).
          destruct (contains (lit "TITLE") l) eqn:T; auto.
          destruct Gp as [Q|Q]; apply occurs_true in Q; [congruence|]. rewrite Q. auto.
        + cbn [blocks_of flat_map app] in W. inversion W as [|? ? [Rn Re] Ws]; subst.
          destruct Gp as (Z & T & V & N & D & Pn & Pe).
          destruct (exists_list _ _ _ _ Rn) as (ns & Fn). destruct (exists_list _ _ _ _ Re) as (qs & Fq).
          assert (Ln : List.length ns = List.length (b_nodes b)) by (symmetry; clear -Fn; induction Fn; cbn; auto).
          destruct (flat_map_groups qs) as (groups & Fg & Eg).
          set (z := FZone (b_name b) ns (flat_map (quad_faces rv) qs)).
          destruct (IH (z :: acc) Gs Ws) as (zs & E & F). exists (z :: zs). split.
          * unfold file_of. cbn [flat_map piece_lines]. fold (file_of ps). unfold block_lines. cbn [app load_nodes_data].
            rewrite (proj2 (contains_not _ _) T), (proj2 (contains_not _ _) V), (occurs_true _ _ Z), (counts_ok _ _ _ D). cbn [rbind].
            rewrite (zone_title_ok _ _ N). cbn [rbind fst snd]. rewrite <- app_assoc.
            rewrite (load_nodes (b_nodes b) ns) by auto. cbn [fz_title fz_nodes fz_faces app].
            rewrite (load_elems (b_elems b) qs); auto; [|cbn [fz_nodes]; rewrite Ln; auto]. cbn [fz_title fz_nodes fz_faces app]. fold z. rewrite E. cbn [rev]. rewrite <- app_assoc. reflexivity.
          * cbn [blocks_of flat_map app]. constructor; auto. split; [reflexivity|]. split; [exact Fn|]. exists qs, groups. auto. }
    apply (G ps [] H W).
  Qed.
End Load.
