(** Proofs about the program ansys_to_crystal.py as a whole: up to the file written by Export. *)

From Coq Require Import ZArith Reals Lra Bool List Lia String Ascii Sorted.
From Verif Require Import Py PyLemmas TextLemmas Heap GridSpec FileSpec Geom Convert ConvertSpec Ansys AnsysSpec AnsysText AnsysProofs AnsysMore
  AnsysExportSpec AnsysExport AnsysPipe AnsysMain AnsysMainSpec AnsysMainText.
Import ListNotations.
Open Scope list_scope.
Open Scope nat_scope.

Lemma stage_ok : forall f text out, f (file_lines text) = Ok out -> stage f text = Ok (List.concat out).
Proof. intros f text out E. unfold stage. rewrite E. reflexivity. Qed.

(* ---------------------------------------------------------------- *)
(** ** Zones *)

Lemma file_of_app : forall a b, file_of (a ++ b) = file_of a ++ file_of b.
Proof. intros. apply flat_map_app. Qed.
Lemma file_heads : forall ls, file_of (map Head ls) = ls.
Proof. induction ls as [|l ls IH]; [reflexivity|]. cbn. f_equal. exact IH. Qed.
Lemma file_datas : forall bs, file_of (map Data bs) = flat_map block_lines bs.
Proof. induction bs as [|b bs IH]; [reflexivity|]. cbn. unfold file_of in IH. rewrite IH. reflexivity. Qed.

Definition pieces (s : source) (bs : list block) : list piece := map Head (s_titles s) ++ Head (s_vars s) :: map Data bs.

Lemma file_pieces : forall s bs, file_of (pieces s bs) = s_titles s ++ s_vars s :: flat_map block_lines bs.
Proof. intros s bs. unfold pieces. rewrite file_of_app, file_heads. f_equal. cbn. f_equal. apply file_datas. Qed.

Lemma kept_selected : forall zs s bs, kept zs s bs -> selected zs (pieces s (s_blocks s)) (pieces s bs).
Proof.
  intros zs s bs H. unfold pieces. induction (s_titles s) as [|l ls IH]; cbn [map app]; [|apply sel_head; exact IH].
  apply sel_head. unfold kept in H. induction H as [|x l l' P H IH|x l l' P H IH]; cbn [map]; [apply sel_nil|apply sel_keep; auto|apply sel_drop; auto].
Qed.

Lemma sublist_forall : forall A (p : A -> Prop) (Q : A -> Prop) l l', sublist_of p l l' -> Forall Q l -> Forall Q l'.
Proof. intros A p Q l l' H. induction H; intros K; inversion K; subst; auto. Qed.
Lemma sublist_p : forall A (p : A -> Prop) l l', sublist_of p l l' -> Forall p l'.
Proof. intros A p l l' H. induction H; auto. Qed.

Lemma sublist_subl : forall A B (p : A -> Prop) (f : A -> list B) l l', sublist_of p l l' -> subl (flat_map f l') (flat_map f l).
Proof.
  intros A B p f l l' H. induction H as [|x l l' P H IH|x l l' P H IH]; cbn [flat_map]; [apply subl_nil| |].
  - apply subl_app; [apply subl_refl|auto].
  - change (flat_map f l') with ([] ++ flat_map f l'). apply subl_app; [apply subl_none|auto].
Qed.

Definition lines_of (s : source) (bs : list block) : list str := s_titles s ++ s_vars s :: flat_map block_lines bs.

Lemma zones_stage : forall zs text s bs, Forall (fun z => ~ In dquote z) zs -> source_text text s -> kept zs s bs ->
  stage (filter_zones zs 0 0) text = Ok (List.concat (lines_of s bs)) /\ ok_lines (lines_of s bs).
Proof.
  intros zs text s bs Hz (El & Ht & Hv & Hb & _) K.
  assert (Gp : Forall good_piece (pieces s (s_blocks s))).
  { unfold pieces. apply Forall_app. split; [apply Forall_map; eapply Forall_impl; [|exact Ht]; intros l H; left; exact H|].
    constructor; [right; apply Hv|]. apply Forall_map. exact Hb. }
  destruct (filter_zones_ok zs _ Hz Gp) as (qs & Sel & E). rewrite (selected_fun _ _ _ _ Sel (kept_selected _ _ _ K)) in E.
  rewrite !file_pieces in E. split.
  - apply stage_ok. rewrite El. exact E.
  - assert (O := file_lines_form text). rewrite El in O. eapply ok_sub; [|exact O]. unfold lines_of. apply subl_app; [apply subl_refl|].
    apply subl_keep. eapply sublist_subl. exact K.
Qed.

(* ---------------------------------------------------------------- *)
(** ** Variables *)

Definition chosen_row (cols : list nat) (l : str) : str := written_row (pick cols (split_ws l)).

Lemma block_map : forall f bs, (forall l, whole_line (f l)) ->
  Forall2 (fun l l' => l' = l \/ whole_line l') (flat_map block_lines bs) (flat_map block_lines (map (with_rows f) bs)).
Proof.
  intros f bs H. induction bs as [|b bs IH]; [constructor|]. cbn [map flat_map]. apply Forall2_app; [|exact IH].
  unfold block_lines, with_rows. cbn [b_head b_nodes b_elems]. constructor; [auto|]. apply Forall2_app; [|apply same_refl].
  induction (b_nodes b) as [|l ls IHl]; cbn [map]; constructor; auto.
Qed.

Lemma chosen_whole : forall cols l, whole_line (chosen_row cols l).
Proof. intros cols l. apply row_whole. intros w I. apply pick_In in I. apply words_in in I. tauto. Qed.

Lemma vars_stage : forall names text s cols bs, whole_line (written_variables names) ->
  source_text text s -> has_columns names s cols -> Forall good_block bs -> ok_lines (lines_of s bs) ->
  let out := s_titles s ++ written_variables names :: flat_map block_lines (map (with_rows (chosen_row cols)) bs) in
  stage (filter_variables names None 0 0) (List.concat (lines_of s bs)) = Ok (List.concat out) /\ ok_lines out.
Proof.
  intros names text s cols bs Wn (_ & Ht & Hv & _ & _) [Hc Ha] Hb O out.
  destruct (filter_variables_ok names (s_titles s) (s_vars s) (s_raws s) bs Ht Hv Hb) as (cols' & names' & C & A & E).
  assert (cols' = cols) by (eapply columns_fun; eauto). subst cols'. assert (names' = names) by (eapply answers_fun; eauto). subst names'.
  split; [apply stage_ok; rewrite read_again by auto; exact E|]. eapply ok_map; [|exact O]. unfold out, lines_of. apply Forall2_app; [apply same_refl|].
  constructor; [auto|]. apply block_map. apply chosen_whole.
Qed.

(* ---------------------------------------------------------------- *)
(** ** Rows *)

Lemma zip4_len : forall A B C D (P : A -> B -> C -> D -> Prop) a b c d, zip4 P a b c d -> List.length d = List.length a.
Proof. intros A B C D P a b c d H. induction H; cbn; auto. Qed.

Section Rows.
  Variables (fl : str -> res R) (sfmt : R -> str) (rs : R -> R) (t v cp : R).
  Hypothesis Hv : v <> 0%R.
  Hypothesis Hcp : cp <> 0%R.
  Hypothesis Hs : forall x, number_text (sfmt x).
  Hypothesis Hrs : forall x, fl (sfmt x) = Ok (rs x).
  Variables (cf cd ca : list nat).

  Lemma coordinate_fun : forall s a b, coordinate fl s a -> coordinate fl s b -> a = b.
  Proof. intros s a b [A|[A Ea]] [B|[B Eb]]; congruence. Qed.

  Lemma node_from_fun : forall l n n', node_from fl l n -> node_from fl l n' -> n = n'.
  Proof.
    intros l [[px py pz] [h b tx ty tz r]] [[px' py' pz'] [h' b' tx' ty' tz' r']]
      (x & y & z & h1 & b1 & x1 & y1 & z1 & r1 & E & Cx & Cy & Cz & F1 & F2 & F3 & F4 & F5 & F6)
      (x' & y' & z' & h2 & b2 & x2 & y2 & z2 & r2 & E' & Dx & Dy & Dz & G1 & G2 & G3 & G4 & G5 & G6).
    rewrite E in E'. injection E' as <- <- <- <- <- <- <- <- <-.
    cbn [cn_point cn_data vx vy vz c_htc c_beta c_taux c_tauy c_tauz c_rf] in *.
    rewrite (coordinate_fun _ _ _ Cx Dx), (coordinate_fun _ _ _ Cy Dy), (coordinate_fun _ _ _ Cz Dz). congruence.
  Qed.

  Lemma chosen_words : forall cols l, split_ws (chosen_row cols l) = pick cols (split_ws l).
  Proof. intros cols l. apply row_words. intros w I. apply pick_In in I. apply words_in in I. tauto. Qed.

  Lemma rows_merged : forall f d a n m, node_of_rows fl rs t v cp cf cd ca f d a n -> merged_row (chosen_row cf f) (chosen_row cd d) (chosen_row ca a) m ->
    htc_readable fl m /\ whole_line m /\ (plain f -> plain d -> plain a -> plain m) /\
    forall h, htc_written fl sfmt t v cp m h -> whole_line h /\ node_from fl h n /\ (plain f -> plain d -> plain a -> plain h).
  Proof.
    intros f d a n m
      (x & y & z & ts & sx & sy & sz & q & d1 & d2 & d3 & beta & a1 & a2 & a3 & st & vts & vst & vq & htc & rf & Pf & Pd & Pa &
       Cx & Cy & Cz & Fb & Fx & Fy & Fz & Fts & Fst & Fq & Ne & Erf & Eh & Dh & Dr)
      (f0 & f1 & f2 & f3 & f4 & f5 & f6 & f7 & fr & e0 & e1 & e2 & e3 & er & b0 & b1 & b2 & b3 & br & Sf & Sd & Sa & Em).
    rewrite chosen_words, Pf in Sf. rewrite chosen_words, Pd in Sd. rewrite chosen_words, Pa in Sa.
    injection Sf as <- <- <- <- <- <- <- <- <-. injection Sd as <- <- <- <- <-. injection Sa as <- <- <- <- <-.
    assert (Wf : forall w, In w [x; y; z; ts; sx; sy; sz; q] -> In w (split_ws f)) by (intros w I; rewrite <- Pf in I; eapply pick_In; eauto).
    assert (Wd : In beta (split_ws d)) by (apply (pick_In _ cd); rewrite Pd; right; right; right; left; auto).
    assert (Wa : In st (split_ws a)) by (apply (pick_In _ ca); rewrite Pa; right; right; right; left; auto).
    assert (W : forall w, In w [x; y; z; q; beta; sx; sy; sz; ts; st] -> In w (split_ws f) \/ In w (split_ws d) \/ In w (split_ws a)).
    { intros w I. cbn in I. destruct I as [<-|[<-|[<-|[<-|[<-|[<-|[<-|[<-|[<-|[<-|[]]]]]]]]]]]; auto; left; apply Wf; cbn; auto 12. }
    assert (Ww : forall w, In w [x; y; z; q; beta; sx; sy; sz; ts; st] -> word w).
    { intros w I. destruct (W w I) as [J|[J|J]]; apply words_in in J; tauto. }
    assert (Sm : split_ws m = [x; y; z; q; beta; sx; sy; sz; ts; st]) by (rewrite Em; apply row_words; exact Ww).
    split; [exists x, y, z, q, beta, sx, sy, sz, ts, st, vq, vts, vst; auto|].
    split; [rewrite Em; apply row_whole; exact Ww|].
    split.
    { intros Qf Qd Qa. rewrite Em. apply plain_row. intros w I. destruct (W w I) as [J|[J|J]]; [exact (plain_word f w Qf J)|exact (plain_word d w Qd J)|exact (plain_word a w Qa J)]. }
    intros h (x' & y' & z' & q' & beta' & sx' & sy' & sz' & ts' & st' & vq' & vts' & vst' & htc' & rf' & Sm' & Gq & Gts & Gst & Erf' & Eh' & ->).
    rewrite Sm in Sm'. injection Sm' as <- <- <- <- <- <- <- <- <- <-.
    rewrite Fq in Gq. injection Gq as <-. rewrite Fts in Gts. injection Gts as <-. rewrite Fst in Gst. injection Gst as <-.
    assert (htc' = htc). { apply (Rmult_eq_reg_r (vts - vst)); [rewrite Eh, Eh'; reflexivity|lra]. }
    assert (rf' = rf).
    { rewrite Erf in Erf'. assert (E : (rf * (v * v) / (2 * cp) = rf' * (v * v) / (2 * cp))%R) by lra.
      assert (N2 : (v * v / (2 * cp))%R <> 0%R).
      { unfold Rdiv. apply Rmult_integral_contrapositive_currified; [apply Rmult_integral_contrapositive_currified; auto|]. apply Rinv_neq_0_compat. lra. }
      apply (Rmult_eq_reg_r (v * v / (2 * cp))%R); auto. unfold Rdiv in *. lra. }
    subst htc' rf'.
    assert (Wh : forall w, In w [x; y; z; sfmt htc; beta; sx; sy; sz; sfmt rf] -> word w).
    { intros w I. cbn in I. destruct I as [<-|[<-|[<-|[<-|[<-|[<-|[<-|[<-|[<-|[]]]]]]]]]];
        try (apply Ww; cbn; auto 12; fail); split; apply Hs. }
    split; [apply row_whole; exact Wh|]. split.
    - exists x, y, z, (sfmt htc), beta, sx, sy, sz, (sfmt rf). split; [apply row_words; exact Wh|].
      repeat split; auto; rewrite Hrs; congruence.
    - intros Qf Qd Qa. apply plain_row. intros w I. cbn in I. destruct I as [<-|[<-|[<-|[<-|[<-|[<-|[<-|[<-|[<-|[]]]]]]]]]];
        try (eapply plain_word; [exact Qf|apply Wf; cbn; auto 12]; fail); try apply Hs. eapply plain_word; [exact Qd|exact Wd].
  Qed.

  (* -------------------------------------------------------------- *)
  (** ** Zones of three files *)

  Notation rows := (node_of_rows fl rs t v cp cf cd ca).
  Notation wr := (fun c => with_rows (chosen_row c)).

  Lemma good_rows : forall b c, good_block b -> b_name c = b_name b -> b_head c = b_head b -> b_elems c = b_elems b ->
    List.length (b_nodes c) = List.length (b_nodes b) -> Forall plain (b_nodes c) -> good_block c.
  Proof.
    intros b c (G1 & G2 & G3 & G4 & G5 & G6 & G7) En Eh Ee El P. unfold good_block. rewrite En, Eh, Ee, El. auto 10.
  Qed.

  Lemma zip_rows : forall lf ld la ns, zip4 rows lf ld la ns -> forall ms,
    Forall plain lf -> Forall plain ld -> Forall plain la ->
    zip4 merged_row (map (chosen_row cf) lf) (map (chosen_row cd) ld) (map (chosen_row ca) la) ms ->
    List.length ms = List.length lf /\ Forall plain ms /\ Forall whole_line ms /\ Forall (htc_readable fl) ms /\
    forall hs, Forall2 (htc_written fl sfmt t v cp) ms hs ->
      List.length hs = List.length lf /\ Forall plain hs /\ Forall whole_line hs /\ Forall2 (node_from fl) hs ns.
  Proof.
    intros lf ld la ns Z. induction Z as [|f d a n lf ld la ns N Z IH]; intros ms Pf Pd Pa M; cbn [map] in M; inversion M as [|? ? ? m ? ? ? ms' Hm Zm]; subst.
    - repeat split; auto; match goal with H : Forall2 _ [] _ |- _ => inversion H; subst end; auto.
    - apply Forall_cons_iff in Pf as [Pf Pf']. apply Forall_cons_iff in Pd as [Pd Pd']. apply Forall_cons_iff in Pa as [Pa Pa'].
      destruct (IH _ Pf' Pd' Pa' Zm) as (L & Q1 & Q2 & Q3 & Q4). destruct (rows_merged _ _ _ _ _ N Hm) as (R1 & R2 & R3 & R4).
      split; [cbn; auto|]. split; [constructor; auto|]. split; [constructor; auto|]. split; [constructor; auto|].
      intros hs Hh. inversion Hh as [|? h ? hs' Wh Fh]; subst. destruct (R4 _ Wh) as (S1 & S2 & S3). destruct (Q4 _ Fh) as (T1 & T2 & T3 & T4).
      repeat split; try constructor; auto. cbn. auto.
  Qed.

  Lemma block_step : forall b d a ns m, readable3 fl rs t v cp cf cd ca b d a ns -> good_block b -> good_block d -> good_block a ->
    merged_block (wr cf b) (wr cd d) (wr ca a) m ->
    good_block m /\ Forall whole_line (b_nodes m) /\ Forall (htc_readable fl) (b_nodes m) /\ b_head m = b_head b /\ b_elems m = b_elems b /\
    forall h, rows_related (htc_written fl sfmt t v cp) m h ->
      good_block h /\ Forall whole_line (b_nodes h) /\ b_head h = b_head b /\ b_elems h = b_elems b /\ b_name h = b_name b /\ readable fl h /\
      forall rv z, loaded_zone fl rv h z -> zone_of_blocks fl rs t v cp cf cd ca rv b d a z.
  Proof.
    intros b d a ns m (_ & _ & Z & Q) Gb Gd Ga (En & Eh & Ee & Zm). cbn [with_rows b_name b_head b_nodes b_elems] in *.
    destruct (zip_rows _ _ _ _ Z _ (proj1 (proj2 (proj2 (proj2 (proj2 (proj2 Gb))))))
      (proj1 (proj2 (proj2 (proj2 (proj2 (proj2 Gd)))))) (proj1 (proj2 (proj2 (proj2 (proj2 (proj2 Ga)))))) Zm) as (L & P & W & H & K).
    split; [apply (good_rows b); auto|]. split; [auto|]. split; [auto|]. split; [auto|]. split; [auto|].
    intros h (Hn & Hh & He & Hr). destruct (K _ Hr) as (L' & P' & W' & N').
    assert (E1 : b_name h = b_name b) by congruence. assert (E2 : b_head h = b_head b) by congruence. assert (E3 : b_elems h = b_elems b) by congruence.
    split; [apply (good_rows b); auto|]. split; [auto|]. split; [auto|]. split; [auto|]. split; [auto|]. split.
    - split.
      + clear -N'. induction N'; constructor; eauto.
      + rewrite E3, L'. exact Q.
    - intros rv z (T & Fn & quads & groups & Fq & Fg & Ef). split; [congruence|]. split.
      + assert (fz_nodes z = ns); [|congruence]. clear -N' Fn. revert Fn. generalize (fz_nodes z). induction N' as [|l n ls ns Nl N' IH]; intros zs Fn; inversion Fn; subst; [reflexivity|].
        f_equal; [eapply node_from_fun; eauto|apply IH; auto].
      + exists quads, groups. rewrite <- E3, <- L'. auto.
  Qed.

  Lemma blocks_step : forall bs ds al nss, zip4 (readable3 fl rs t v cp cf cd ca) bs ds al nss -> forall ms,
    Forall good_block bs -> Forall good_block ds -> Forall good_block al ->
    zip4 merged_block (map (wr cf) bs) (map (wr cd) ds) (map (wr ca) al) ms ->
    Forall good_block ms /\ Forall2 (fun l l' => l' = l \/ whole_line l') (flat_map block_lines (map (wr cf) bs)) (flat_map block_lines ms) /\
    Forall (fun b => Forall (htc_readable fl) (b_nodes b)) ms /\
    forall hs, Forall2 (rows_related (htc_written fl sfmt t v cp)) ms hs ->
      Forall good_block hs /\ Forall2 (fun l l' => l' = l \/ whole_line l') (flat_map block_lines ms) (flat_map block_lines hs) /\
      map b_name hs = map b_name bs /\ Forall (readable fl) hs /\
      forall rv zs, Forall2 (loaded_zone fl rv) hs zs -> zip4 (zone_of_blocks fl rs t v cp cf cd ca rv) bs ds al zs.
  Proof.
    assert (X : forall ls ls', Forall whole_line ls' -> List.length ls = List.length ls' -> Forall2 (fun l l' => l' = l \/ whole_line l') ls ls').
    { intros ls ls' H. revert ls. induction H; intros ls E; destruct ls; try discriminate; constructor; auto. }
    intros bs ds al nss Z. induction Z as [|b d a ns bs ds al nss R Z IH]; intros ms Gb Gd Ga M; cbn [map] in M; inversion M as [|? ? ? m ? ? ? ms' Hm Zm]; subst.
    - split; [constructor|]. split; [constructor|]. split; [constructor|]. intros hs Hh. inversion Hh; subst. split; [constructor|]. split; [constructor|]. split; [reflexivity|]. split; [constructor|].
      intros rv zs Hz. inversion Hz; subst. constructor.
    - apply Forall_cons_iff in Gb as [Gb Gb']. apply Forall_cons_iff in Gd as [Gd Gd']. apply Forall_cons_iff in Ga as [Ga Ga'].
      destruct (IH _ Gb' Gd' Ga' Zm) as (I1 & I2 & I3 & I4). destruct (block_step _ _ _ _ _ R Gb Gd Ga Hm) as (J1 & J2 & J3 & J4 & J5 & J6).
      assert (Lm : List.length (b_nodes m) = List.length (b_nodes b)).
      { destruct Hm as (_ & _ & _ & Hm). clear -Hm. cbn [with_rows b_nodes] in Hm. apply zip4_len in Hm. rewrite map_length in Hm. auto. }
      split; [constructor; auto|]. split.
      { cbn [map flat_map]. apply Forall2_app; [|exact I2]. unfold block_lines. cbn [with_rows b_head b_nodes b_elems].
        constructor; [left; congruence|]. apply Forall2_app; [apply X; auto; rewrite map_length; auto|rewrite J5; apply same_refl]. }
      split; [constructor; auto|]. intros hs Hh. inversion Hh as [|? h ? hs' Hr Hf]; subst.
      destruct (I4 _ Hf) as (K1 & K2 & K3 & K4 & K5). destruct (J6 _ Hr) as (L1 & L2 & L3 & L4 & L5 & L6 & L7).
      split; [constructor; auto|]. split.
      { cbn [flat_map]. apply Forall2_app; [|exact K2]. unfold block_lines. constructor; [left; congruence|].
        apply Forall2_app; [|rewrite L4, J5; apply same_refl]. apply X; auto. destruct Hr as (_ & _ & _ & Hr). eapply f2_len; eauto. }
      split; [cbn [map]; congruence|]. split; [constructor; auto|]. intros rv zs Hz. inversion Hz; subst. constructor; auto.
  Qed.
End Rows.

(* ---------------------------------------------------------------- *)
(** ** The file written by Export *)

Lemma split_on_In : forall c s p x, In p (split_on c s) -> In x p -> In x s.
Proof.
  intros c s. induction s as [|y s IH]; intros p x I J; cbn [split_on] in I.
  - destruct I as [<-|[]]. destruct J.
  - destruct (Ascii.eqb y c).
    + destruct I as [<-|I]; [destruct J|]. right. eapply IH; eauto.
    + destruct (split_on c s) as [|q r] eqn:E.
      * destruct I as [<-|[]]. destruct J as [<-|[]]. left. auto.
      * destruct I as [<-|I].
        -- destruct J as [<-|J]; [left; auto|]. right. apply (IH q x); [left; auto|auto].
        -- right. apply (IH p x); [right; auto|auto].
Qed.

Lemma zip4_same : forall A B C D (P : A -> B -> C -> D -> Prop) (Q : A -> B -> Prop) a b c d, (forall x y z w, P x y z w -> Q x y) -> zip4 P a b c d -> Forall2 Q a b.
Proof. intros A B C D P Q a b c d H Z. induction Z; constructor; eauto. Qed.
Lemma zip4_same2 : forall A B C D (P : A -> B -> C -> D -> Prop) (Q : A -> C -> Prop) a b c d, (forall x y z w, P x y z w -> Q x z) -> zip4 P a b c d -> Forall2 Q a c.
Proof. intros A B C D P Q a b c d H Z. induction Z; constructor; eauto. Qed.

Lemma rows_sized : forall f g b d, same_size b d -> same_size (with_rows f b) (with_rows g d).
Proof. intros f g b d [A B]. split; cbn [with_rows b_nodes b_elems]; rewrite ?map_length; auto. Qed.

Lemma map_sized : forall f g bs ds, Forall2 same_size bs ds -> Forall2 same_size (map (with_rows f) bs) (map (with_rows g) ds).
Proof. intros f g bs ds H. induction H; cbn [map]; constructor; auto. apply rows_sized. auto. Qed.

Lemma zip_words : forall A B C D (P : A -> B -> C -> D -> Prop) (Q : A -> Prop) (Q2 : B -> Prop) (Q3 : C -> Prop),
  (forall x y z w, P x y z w -> Q x /\ Q2 y /\ Q3 z) -> forall a b c d, zip4 P a b c d -> Forall Q a /\ Forall Q2 b /\ Forall Q3 c.
Proof.
  intros A B C D P Q Q2 Q3 H a b c d Z. induction Z as [|x y z w la lb lc ld Hp Z IH]; [auto|]. destruct (H _ _ _ _ Hp) as (H1 & H2 & H3). destruct IH as (I1 & I2 & I3). auto.
Qed.

Lemma fensap_line : whole_line (written_variables fensap_variables_to_extract).
Proof. eexists. split; [unfold written_variables; rewrite app_assoc; reflexivity|]. apply Forall_forall. vm_compute. repeat (constructor; [split; discriminate|]). constructor. Qed.
Lemma drop3d_line : whole_line (written_variables drop3d_variables_to_extract).
Proof. eexists. split; [unfold written_variables; rewrite app_assoc; reflexivity|]. apply Forall_forall. vm_compute. repeat (constructor; [split; discriminate|]). constructor. Qed.
Lemma adiabatic_line : whole_line (written_variables adiabatic_variables_to_extract).
Proof. eexists. split; [unfold written_variables; rewrite app_assoc; reflexivity|]. apply Forall_forall. vm_compute. repeat (constructor; [split; discriminate|]). constructor. Qed.
Lemma merged_line : whole_line (header_of merged_names).
Proof. eexists. split; [unfold header_of; rewrite app_assoc; reflexivity|]. apply Forall_forall. vm_compute. repeat (constructor; [split; discriminate|]). constructor. Qed.
Lemma htc_line : whole_line (header_of htc_names).
Proof. eexists. split; [unfold header_of; rewrite app_assoc; reflexivity|]. apply Forall_forall. vm_compute. repeat (constructor; [split; discriminate|]). constructor. Qed.

Lemma blocks_datas : forall ls bs, blocks_of (map Head ls ++ map Data bs) = bs.
Proof.
  intros ls bs. unfold blocks_of. rewrite flat_map_app. replace (flat_map _ (map Head ls)) with (@nil block) by (induction ls; auto).
  cbn [app]. induction bs as [|b bs IH]; [reflexivity|]. cbn. f_equal. exact IH.
Qed.

Section Exported.
  Context {F : FloatOps}.
  Variables (fl : str -> res R) (sfmt fm : R -> str) (rs : R -> R) (rd : R -> val) (t v cp : R).
  Hypothesis Hv : v <> 0%R.
  Hypothesis Hcp : cp <> 0%R.
  Hypothesis Hs : forall x, number_text (sfmt x).
  Hypothesis Hrs : forall x, fl (sfmt x) = Ok (rs x).
  Hypothesis Hw : forall x, word (fm x).
  Hypothesis Hp : forall x, prs (fm x) = Some (rd x).

  Lemma exported_ok : forall zones rv ft dt at' sf sd sa cf cd ca kf kd ka nss,
    ~ In dquote zones -> source_text ft sf -> source_text dt sd -> source_text at' sa ->
    has_columns fensap_variables_to_extract sf cf -> has_columns drop3d_variables_to_extract sd cd -> has_columns adiabatic_variables_to_extract sa ca ->
    kept (split_on comma zones) sf kf -> kept (split_on comma zones) sd kd -> kept (split_on comma zones) sa ka ->
    List.length (s_titles sd) = List.length (s_titles sf) -> List.length (s_titles sa) = List.length (s_titles sf) ->
    zip4 (readable3 fl rs t v cp cf cd ca) kf kd ka nss ->
    (forall b x, In b kf -> In x (b_name b) -> x <> eqsign /\ x <> nl /\ x <> cr) ->
    exists gs zrs out, exported_text fl sfmt fm zones t v cp rv ft dt at' = Ok out /\
      zip4 (zone_of_blocks fl rs t v cp cf cd ca rv) kf kd ka gs /\ Forall2 (exported rd) gs zrs /\
      file_form [] (file_lines out) (map EZone zrs).
  Proof.
    intros zones rv ft dt at' sf sd sa cf cd ca kf kd ka nss Hz Sf Sd Sa Cf Cd Ca Kf Kd Ka Ld La Z Hn.
    assert (Hz' : Forall (fun z => ~ In dquote z) (split_on comma zones)).
    { apply Forall_forall. intros p I J. apply Hz. eapply split_on_In; eauto. }
    destruct (zones_stage _ _ _ _ Hz' Sf Kf) as [E1 O1]. destruct (zones_stage _ _ _ _ Hz' Sd Kd) as [E2 O2]. destruct (zones_stage _ _ _ _ Hz' Sa Ka) as [E3 O3].
    assert (Gf : Forall good_block kf) by (eapply sublist_forall; [exact Kf|]; apply Sf).
    assert (Gd : Forall good_block kd) by (eapply sublist_forall; [exact Kd|]; apply Sd).
    assert (Ga : Forall good_block ka) by (eapply sublist_forall; [exact Ka|]; apply Sa).
    destruct (vars_stage _ _ _ _ _ fensap_line Sf Cf Gf O1) as [E4 O4]. destruct (vars_stage _ _ _ _ _ drop3d_line Sd Cd Gd O2) as [E5 O5]. destruct (vars_stage _ _ _ _ _ adiabatic_line Sa Ca Ga O3) as [E6 O6].
    set (bs := map (with_rows (chosen_row cf)) kf) in *. set (ds := map (with_rows (chosen_row cd)) kd) in *. set (al := map (with_rows (chosen_row ca)) ka) in *.
    assert (Ht : Forall head_title (s_titles sf)) by apply Sf.
    assert (P : forall c ks, Forall good_block ks -> Forall good_block (map (with_rows (chosen_row c)) ks)).
    { clear. intros c ks H. induction H as [|k ks G H IH]; cbn [map]; constructor; auto. apply (good_rows k); auto; cbn [with_rows b_name b_head b_elems b_nodes]; auto.
      - rewrite map_length. auto.
      - destruct G as (_ & _ & _ & _ & _ & G & _). induction G as [|l ls Pl G IHl]; cbn [map]; constructor; auto.
        apply plain_row. intros w I. apply pick_In in I. eapply plain_word; eauto. }
    assert (Wd : Forall (fun b => Forall (words 8) (b_nodes b)) bs /\ Forall (fun b => Forall (words 4) (b_nodes b)) ds /\ Forall (fun b => Forall (words 4) (b_nodes b)) al).
    { assert (X : Forall (fun b => Forall (words 8) (b_nodes (with_rows (chosen_row cf) b))) kf /\ Forall (fun b => Forall (words 4) (b_nodes (with_rows (chosen_row cd) b))) kd /\
                  Forall (fun b => Forall (words 4) (b_nodes (with_rows (chosen_row ca) b))) ka).
      { apply (zip_words _ _ _ _ _ _ _ _) with (2 := Z). clear. intros b d a ns (_ & _ & Z & _). cbn [with_rows b_nodes].
        rewrite !Forall_map. apply (zip_words _ _ _ _ _ _ _ _) with (2 := Z). clear. intros f d a n
          (x & y & z & ts & sx & sy & sz & q & d1 & d2 & d3 & beta & a1 & a2 & a3 & st & vts & vst & vq & htc & rf & Pf & Pd & Pa & _).
        unfold words. rewrite !chosen_words, Pf, Pd, Pa. cbn. lia. }
      unfold bs, ds, al. rewrite !Forall_map. exact X. }
    destruct Wd as (W1 & W2 & W3).
    destruct (merge_ok (s_titles sf) (written_variables fensap_variables_to_extract) bs (s_titles sd ++ [written_variables drop3d_variables_to_extract]) ds
      (s_titles sa ++ [written_variables adiabatic_variables_to_extract]) al) as (ms & Zm & Em); auto.
    { apply contains_occurs. vm_compute. reflexivity. }
    { apply contains_not. vm_compute. reflexivity. }
    { apply P. auto. }
    { rewrite app_length. cbn. lia. }
    { rewrite app_length. cbn. lia. }
    { apply map_sized. eapply zip4_same; [|exact Z]. intros x y z w H. apply H. }
    { apply map_sized. eapply zip4_same2; [|exact Z]. intros x y z w H. apply H. }
    rewrite <- !app_assoc in Em. cbn [app] in Em.
    destruct (blocks_step fl sfmt rs t v cp Hv Hcp Hs Hrs cf cd ca _ _ _ _ Z ms Gf Gd Ga Zm) as (Gm & Wm & Rm & Km).
    assert (Om : ok_lines (s_titles sf ++ header_of merged_names :: flat_map block_lines ms)).
    { eapply ok_map; [|exact O4]. apply Forall2_app; [apply same_refl|]. constructor; [right; exact merged_line|exact Wm]. }
    destruct (htc_file_ok fl sfmt t v cp Hv Hcp (s_titles sf) (header_of merged_names) ms Ht) as (hs & Fh & Eh); auto.
    { apply contains_occurs. vm_compute. reflexivity. }
    { apply contains_not. vm_compute. reflexivity. }
    destruct (Km _ Fh) as (Gh & Wh & Nh & Rh & Zh).
    assert (Oh : ok_lines (s_titles sf ++ header_of htc_names :: flat_map block_lines hs)).
    { eapply ok_map; [|exact Om]. apply Forall2_app; [apply same_refl|]. constructor; [right; exact htc_line|exact Wh]. }
    set (ps := map Head (s_titles sf ++ [header_of htc_names]) ++ map Data hs).
    assert (Eps : file_of ps = s_titles sf ++ header_of htc_names :: flat_map block_lines hs).
    { unfold ps. rewrite file_of_app, file_heads, file_datas, <- app_assoc. reflexivity. }
    assert (Bps : blocks_of ps = hs) by apply blocks_datas.
    destruct (nodes_to_faces fl fm rd rv ps Hw Hp) as (gs & zrs & El & Fl & Fx & Ff).
    { unfold ps. apply Forall_app. split; [|apply Forall_map; exact Gh]. apply Forall_map. apply Forall_app. split.
      - eapply Forall_impl; [|exact Ht]. intros l H. left. exact H.
      - constructor; [|constructor]. right. apply contains_occurs. vm_compute. reflexivity. }
    { rewrite Bps. exact Rh. }
    { rewrite Bps. intros b x I J. assert (In (b_name b) (map b_name kf)) by (rewrite <- Nh; apply in_map; auto). apply in_map_iff in H as (b' & E & I'). rewrite <- E in J. eapply Hn; eauto. }
    rewrite Bps in Fl. rewrite Eps in El.
    exists gs, zrs, (List.concat (export fm gs)). split; [|split; [apply Zh; exact Fl|split; [exact Fx|exact Ff]]].
    unfold exported_text. rewrite E1, E2, E3. cbn [rbind]. rewrite E4, E5, E6. cbn [rbind]. rewrite !read_again by assumption.
    rewrite Em. cbn [rbind]. rewrite (stage_ok _ _ _ (eq_trans (f_equal _ (read_again _ Om)) Eh)). cbn [rbind]. rewrite read_again by assumption. rewrite El. reflexivity.
  Qed.
End Exported.
