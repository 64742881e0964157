(** Proof that the file written by Grid.Export of the converter is a file for Grid.load. *)

From Coq Require Import ZArith Reals Bool List Lia String Ascii.
From Verif Require Import Py PyLemmas TextLemmas Heap GridSpec FileSpec LoadParse StoreProofs Geom Convert Ansys AnsysExportSpec.
Import ListNotations.
Open Scope list_scope.
Open Scope nat_scope.

Section Export.
  Context {F : FloatOps}.
  Variables (fm : R -> str) (rd : R -> val).
  Hypothesis fm_word : forall x, word (fm x).
  Hypothesis fm_prs : forall x, prs (fm x) = Some (rd x).

  Lemma values_words : forall l, split_ws (values_line fm l) = map fm l.
  Proof.
    unfold values_line. induction l as [|x l IH]; [reflexivity|]. cbn [flat_map map]. rewrite <- !app_assoc.
    change (lit " " ++ flat_map (fun x => fm x ++ lit " ") l ++ [nl]) with (sp :: flat_map (fun x => fm x ++ lit " ") l ++ [nl]).
    rewrite split_ws_word; auto. cbn [app]. rewrite IH. reflexivity.
  Qed.

  Lemma values_number : forall l, number_line (values_line fm l) (map rd l).
  Proof. intros l. unfold number_line. rewrite values_words. induction l; cbn; constructor; auto. Qed.

  Lemma values_whole : forall l, whole_line (values_line fm l).
  Proof.
    intros l. apply plain_line. intros c H. apply in_flat_map in H. destruct H as (x & _ & H). apply in_app_iff in H. destruct H as [H|H].
    - destruct (word_plain (fm x) c (fm_word x) H) as (? & ? & _). auto.
    - destruct H as [<-|[]]. split; discriminate.
  Qed.

  Lemma last_one : forall a b, ~ In eqsign a -> ~ In eqsign b -> last_part (a ++ eqsign :: b) b.
  Proof. intros a b Ha Hb. unfold last_part. rewrite split_on_one by auto. reflexivity. Qed.

  Lemma cut_nl : forall s : str, py_to (s ++ [nl]) (-1) = s.
  Proof.
    intros s. destruct s as [|c s]; [reflexivity|]. apply (proj2 (py_to_last ((c :: s) ++ [nl]) (c :: s) ltac:(discriminate))). exists nl. reflexivity.
  Qed.

  Lemma nat_no_eq : forall n, ~ In eqsign (nat_str n ++ [nl]).
  Proof.
    intros n I. apply in_app_iff in I. destruct I as [I|[E|[]]]; [|discriminate].
    destruct (word_digits n) as [_ _]. pose proof (N_str_digits (N.of_nat n)) as D. rewrite forallb_forall in D. specialize (D _ I). discriminate.
  Qed.

  Lemma count_ok : forall (k : string) (key : str) n, lit k = key ++ [eqsign] -> ~ In eqsign key ->
    count_line k (lit k ++ nat_str n ++ [nl]) (Z.of_nat n).
  Proof.
    intros k key n E Hk. split.
    - assert (C : forall s t, contains s (s ++ t) = true).
      { intros s t. assert (P : prefixb s (s ++ t) = true) by (clear; induction s; cbn; auto; rewrite Ascii.eqb_refl; auto).
        destruct (s ++ t); cbn [contains]; rewrite P; reflexivity. }
      apply C.
    - exists (nat_str n ++ [nl]). split.
      + rewrite E, <- app_assoc. cbn [app]. apply last_one; auto using nat_no_eq.
      + rewrite cut_nl. apply py_int_nat_str.
  Qed.

  Lemma eqs_no : forall s : str, forallb (fun c => negb (Ascii.eqb c eqsign)) s = true -> ~ In eqsign s.
  Proof. intros s H I. rewrite forallb_forall in H. specialize (H _ I). rewrite Ascii.eqb_refl in H. discriminate. Qed.

  (** The line of a zone. *)
  Definition zl (t : str) : str := lit "ZONE T=" ++ [dquote] ++ t ++ [dquote; nl].

  Lemma zone_line_ok : forall t, (forall x, In x t -> x <> eqsign /\ x <> nl /\ x <> cr) -> zone_line (zl t) t.
  Proof.
    intros t Ht. unfold zl.
    assert (No : forall k : str, ~ In eqsign k -> k ++ [eqsign] <> [] -> forall a, a = lit "ZONE T" -> ~ In eqsign ([dquote] ++ t ++ [dquote; nl])).
    { intros _ _ _ _ _ I. apply in_app_iff in I. destruct I as [[E|[]]|I]; [discriminate|]. apply in_app_iff in I.
      destruct I as [I|[E|[E|[]]]]; try discriminate. destruct (Ht _ I) as (N & _). congruence. }
    assert (N : ~ In eqsign ([dquote] ++ t ++ [dquote; nl])) by (apply (No [] ltac:(intros []) ltac:(discriminate) _ eq_refl)).
    assert (L : lit "ZONE T=" ++ [dquote] ++ t ++ [dquote; nl] = lit "ZONE T" ++ eqsign :: [dquote] ++ t ++ [dquote; nl]) by reflexivity.
    assert (P : ~ In eqsign (lit "ZONE T")) by (apply eqs_no; reflexivity).
    split; [cbn; discriminate|]. rewrite L.
    assert (K : forall s : str, ~ In eqsign s -> contains (s ++ [eqsign]) (lit "ZONE T" ++ eqsign :: [dquote] ++ t ++ [dquote; nl]) = contains (s ++ [eqsign]) (lit "ZONE T" ++ [eqsign])).
    { intros s Hs. rewrite (contains_key s (lit "ZONE T") eqsign ([dquote] ++ t ++ [dquote; nl])), (contains_key s (lit "ZONE T") eqsign []); auto. }
    assert (E : forall s k, lit s = k ++ [eqsign] -> ~ In eqsign k -> contains (lit s) (lit "ZONE T" ++ eqsign :: [dquote] ++ t ++ [dquote; nl]) = contains (lit s) (lit "ZONE T=")).
    { intros s k Es Hk. rewrite Es, K by auto. reflexivity. }
    rewrite (E "TITLE="%string (lit "TITLE") eq_refl) by (apply eqs_no; reflexivity).
    rewrite (E "VARIABLES="%string (lit "VARIABLES") eq_refl) by (apply eqs_no; reflexivity).
    rewrite (E "ZONE T="%string (lit "ZONE T") eq_refl P).
    split; [reflexivity|]. split; [reflexivity|]. split; [reflexivity|].
    exists ([dquote] ++ t ++ [dquote; nl]). split; [apply last_one; auto|].
    symmetry. apply (py_slice_inner _ [dquote] t [dquote; nl]); cbn; auto; lia.
  Qed.

  Lemma index_ok : forall n a, a < n -> py_index n (Z.of_nat (a + 1) - 1) = Some a.
  Proof. intros n a H. replace (Z.of_nat (a + 1) - 1)%Z with (Z.of_nat a) by lia. rewrite py_index_nonneg by lia. rewrite Nat2Z.id. reflexivity. Qed.

  Definition link_line (f : nat * nat * nat) : str :=
    let '(a, b, c) := f in nat_str (a + 1) ++ lit " " ++ nat_str (b + 1) ++ lit " " ++ nat_str (c + 1) ++ [nl].

  Lemma link_words : forall a b c, split_ws (link_line (a, b, c)) = [nat_str (a + 1); nat_str (b + 1); nat_str (c + 1)].
  Proof.
    intros a b c. unfold link_line.
    change (lit " " ++ nat_str (b + 1) ++ lit " " ++ nat_str (c + 1) ++ [nl]) with (sp :: nat_str (b + 1) ++ sp :: nat_str (c + 1) ++ [nl]).
    rewrite !split_ws_word by (auto using word_digits). reflexivity.
  Qed.

  Lemma link_ok : forall n a b c, a < n -> b < n -> c < n -> corner_line n (link_line (a, b, c)) (a, b, c).
  Proof.
    intros n a b c Ha Hb Hc. unfold corner_line. exists (nat_str (a + 1)), (nat_str (b + 1)), (nat_str (c + 1)), (Z.of_nat (a + 1)), (Z.of_nat (b + 1)), (Z.of_nat (c + 1)).
    rewrite link_words, !py_int_nat_str, !index_ok by auto. auto 8.
  Qed.

  Lemma link_whole : forall f, whole_line (link_line f).
  Proof.
    intros [[a b] c]. unfold link_line. exists (nat_str (a + 1) ++ lit " " ++ nat_str (b + 1) ++ lit " " ++ nat_str (c + 1)).
    rewrite <- !app_assoc. split; [reflexivity|].
    repeat apply plain_app; try apply plain_nat; intros x [<-|[]]; split; discriminate.
  Qed.

  (** The record of a zone. *)
  Definition face_vals (z : fzone) (f : nat * nat * nat) : list val :=
    match face_data z f with Some d => map (fun g => rd (g d)) data_fields | None => [] end.
  Definition rec_of (z : fzone) : zone_rec :=
    mkZone (fz_title z) data_names (map (fun n => (rd (vx (cn_point n)), rd (vy (cn_point n)), rd (vz (cn_point n)))) (fz_nodes z))
      (map (face_vals z) (fz_faces z)) (fz_faces z).

  Lemma face_data_some : forall z, exportable z -> forall f, In f (fz_faces z) ->
    exists a b c na nb nc, f = (a, b, c) /\ nth_error (fz_nodes z) a = Some na /\ nth_error (fz_nodes z) b = Some nb /\ nth_error (fz_nodes z) c = Some nc /\
      face_data z f = Some (mean_data (cn_data na) (cn_data nb) (cn_data nc)).
  Proof.
    intros z [H _] [[a b] c] I. rewrite Forall_forall in H. specialize (H _ I). cbn in H. destruct H as (Ha & Hb & Hc).
    destruct (nth_error (fz_nodes z) a) as [na|] eqn:Ea; [|apply nth_error_None in Ea; lia].
    destruct (nth_error (fz_nodes z) b) as [nb|] eqn:Eb; [|apply nth_error_None in Eb; lia].
    destruct (nth_error (fz_nodes z) c) as [nc|] eqn:Ec; [|apply nth_error_None in Ec; lia].
    exists a, b, c, na, nb, nc. unfold face_data. rewrite Ea, Eb, Ec. auto 8.
  Qed.

  Lemma exported_rec : forall z, exportable z -> exported rd z (rec_of z).
  Proof.
    intros z H. split; [reflexivity|]. split; [reflexivity|]. split; [reflexivity|]. split; [reflexivity|]. cbn [rec_of zr_data].
    assert (G : forall l, incl l (fz_faces z) -> Forall2 (mean_row rd z) l (map (face_vals z) l)).
    { induction l as [|f l IH]; intros I; [constructor|]. cbn [map]. constructor; [|apply IH; intros x Hx; apply I; right; auto].
      destruct (face_data_some z H f (I f (or_introl eq_refl))) as (a & b & c & na & nb & nc & -> & Ea & Eb & Ec & Ed).
      exists na, nb, nc. unfold face_vals. rewrite Ed. auto. }
    apply G. intros x Hx; auto.
  Qed.

  Lemma faces_values_nth : forall z, exportable z -> forall g, exists l, faces_values z g = l /\ List.length l = List.length (fz_faces z) /\
    forall i f, nth_error (fz_faces z) i = Some f -> exists d, face_data z f = Some d /\ nth_error l i = Some (g d).
  Proof.
    intros z H g. eexists. split; [reflexivity|]. unfold faces_values.
    assert (G : forall l, incl l (fz_faces z) -> List.length (flat_map (fun f => match face_data z f with Some d => [g d] | None => [] end) l) = List.length l /\
      forall i f, nth_error l i = Some f -> exists d, face_data z f = Some d /\ nth_error (flat_map (fun f => match face_data z f with Some d => [g d] | None => [] end) l) i = Some (g d)).
    { induction l as [|f l IH]; intros I; [split; [reflexivity|intros [|i] f; discriminate]|].
      destruct (face_data_some z H f (I f (or_introl eq_refl))) as (a & b & c & na & nb & nc & _ & _ & _ & _ & Ed).
      destruct IH as [IL IN]; [intros x Hx; apply I; right; auto|]. cbn [flat_map]. rewrite Ed. cbn [app List.length]. split; [lia|].
      intros [|i] f' E; [injection E as <-; rewrite Ed; eauto|]. apply IN. exact E. }
    apply G. intros x Hx; auto.
  Qed.

  Lemma take_lines_app : forall a b, take_lines (List.length a) (a ++ b) = (a, b).
  Proof. induction a as [|x a IH]; intros b; [reflexivity|]. cbn [List.length app take_lines tl hd]. rewrite IH. reflexivity. Qed.

  Definition vars9 : list str := map lit ["X"; "Y"; "Z"]%string ++ data_names.

  Lemma zone_form : forall z rest, exportable z ->
    exists l ls, export_zone fm z ++ rest = l :: ls /\ zone_line l (fz_title z) /\ zone_block vars9 ls (rec_of z) rest.
  Proof.
    intros z rest H. eexists. eexists. split; [reflexivity|]. split; [apply zone_line_ok; apply H|].
    assert (Hc : ~ In eqsign (lit "NODES") /\ ~ In eqsign (lit "ELEMENTS")) by (split; apply eqs_no; reflexivity).
    unfold zone_block.
    exists (lit "NODES=" ++ nat_str (List.length (fz_nodes z)) ++ [nl]), (lit "ELEMENTS=" ++ nat_str (List.length (fz_faces z)) ++ [nl]),
      (lit "DATAPACKING=BLOCK" ++ [nl]), (lit "ZONETYPE=FETRIANGLE" ++ [nl]), (lit "VARLOCATION=([4-9]=CELLCENTERED)" ++ [nl]).
    eexists. exists (Z.of_nat (List.length (fz_nodes z))), (Z.of_nat (List.length (fz_faces z))).
    exists (values_line fm (map (fun n => vx (cn_point n)) (fz_nodes z))), (values_line fm (map (fun n => vy (cn_point n)) (fz_nodes z))), (values_line fm (map (fun n => vz (cn_point n)) (fz_nodes z))).
    exists (map rd (map (fun n => vx (cn_point n)) (fz_nodes z))), (map rd (map (fun n => vy (cn_point n)) (fz_nodes z))), (map rd (map (fun n => vz (cn_point n)) (fz_nodes z))).
    eexists. exists (map (fun g => values_line fm (faces_values z g)) data_fields), (map (fun g => map rd (faces_values z g)) data_fields).
    eexists. exists (map link_line (fz_faces z)).
    split; [reflexivity|].
    split; [apply count_ok with (lit "NODES"); [reflexivity|apply Hc]|].
    split; [apply count_ok with (lit "ELEMENTS"); [reflexivity|apply Hc]|].
    split; [exists nl; reflexivity|]. split; [exists nl; reflexivity|]. split; [exists nl; reflexivity|].
    split; [reflexivity|]. split; [reflexivity|].
    split; [apply values_number|]. split; [apply values_number|]. split; [apply values_number|].
    rewrite !Nat2Z.id.
    split; [cbn [rec_of zr_pts]; apply map_length|].
    split.
    { intros i x y w E. cbn [rec_of zr_pts] in E. rewrite nth_error_map in E. rewrite !map_map, !nth_error_map.
      destruct (nth_error (fz_nodes z) i); [|discriminate]. cbn in *. injection E as <- <- <-. auto. }
    split; [reflexivity|].
    split. { unfold data_fields. repeat (constructor; [apply values_number|]). constructor. }
    split; [cbn [rec_of zr_data]; apply map_length|].
    split.
    { intros i row E. cbn [rec_of zr_data] in E. rewrite nth_error_map in E. destruct (nth_error (fz_faces z) i) as [f|] eqn:Ef; [|discriminate].
      cbn in E. injection E as <-. unfold face_vals.
      assert (G : forall g, exists d, face_data z f = Some d /\ nth_error (map rd (faces_values z g)) i = Some (rd (g d))).
      { intros g. destruct (faces_values_nth z H g) as (l & El & _ & N). destruct (N i f Ef) as (d & Ed & En). exists d. split; auto.
        rewrite El, nth_error_map, En. reflexivity. }
      destruct (face_data z f) as [d|] eqn:Ed; [|destruct (G c_htc) as (d & Ed' & _); discriminate].
      unfold data_fields. cbn [map].
      repeat (constructor; [match goal with |- nth_error (map rd (faces_values z ?g)) i = _ => destruct (G g) as (d' & Ed' & ->); injection Ed' as <-; reflexivity end|]). constructor. }
    split. { cbn [rec_of]. rewrite <- (map_length link_line). apply take_lines_app. }
    cbn [rec_of zr_conn zr_pts]. rewrite map_length. destruct H as [H _]. induction (fz_faces z) as [|[[a b] c] l IH]; [constructor|]. apply Forall_cons_iff in H as [(Ha & Hb & Hcc) H'].
    cbn [map]. constructor; [apply link_ok; auto|apply IH; auto].
  Qed.

  Lemma vars_form : vars_line (lit "VARIABLES=" ++ join (lit ", ") (map (fun n => [dquote] ++ lit n ++ [dquote])
    ["X"; "Y"; "Z"; "HTC"; "Beta"; "TauX"; "TauY"; "TauZ"; "RecoveryFactor"]%string) ++ [nl]) vars9.
  Proof.
    split; [cbn; discriminate|]. split; [vm_compute; reflexivity|]. split; [vm_compute; reflexivity|].
    eexists. split; [reflexivity|]. vm_compute. reflexivity.
  Qed.

  Lemma lit_ok : forall s, forallb (fun c => negb (Ascii.eqb c nl) && negb (Ascii.eqb c cr)) s = true -> plain s.
  Proof. intros s H c Hc. eapply lit_plain; eauto. Qed.

  Theorem export_form : forall zs, Forall exportable zs ->
    exists zrs, Forall2 (exported rd) zs zrs /\ file_form [] (file_lines (List.concat (export fm zs))) (map EZone zrs).
  Proof.
    intros zs H. exists (map rec_of zs). split.
    { induction H; cbn; constructor; auto. apply exported_rec. auto. }
    rewrite file_lines_concat.
    - unfold export. eapply ff_vars; [apply vars_form|]. induction H as [|z zs Hz H IH]; [constructor|]. cbn [map flat_map].
      destruct (zone_form z (flat_map (export_zone fm) zs) Hz) as (l & ls & -> & Zl & Zb). eapply ff_zone; [exact Zl|exact Zb|exact IH].
    - intros l I. unfold export in I. destruct I as [<-|I]; [rewrite app_assoc; apply plain_line; apply lit_ok; vm_compute; reflexivity|].
      apply in_flat_map in I. destruct I as (z & Iz & I). rewrite Forall_forall in H. destruct (H z Iz) as [_ Ht].
      unfold export_zone in I. apply in_app_iff in I. destruct I as [I|I].
      + cbn [In] in I.
        repeat (destruct I as [<-|I]; [first [apply values_whole | apply plain_line; apply lit_ok; vm_compute; reflexivity | idtac]|]); [| | |destruct I].
        * change (lit "ZONE T=" ++ [dquote] ++ fz_title z ++ [dquote; nl]) with (lit "ZONE T=" ++ [dquote] ++ fz_title z ++ [dquote] ++ [nl]).
          rewrite !app_assoc. apply plain_line. repeat apply plain_app; try (apply lit_ok; vm_compute; reflexivity).
          intros c Ic. destruct (Ht c Ic) as (_ & ? & ?). auto.
        * rewrite app_assoc. apply plain_line. apply plain_app; [apply lit_ok; vm_compute; reflexivity|apply plain_nat].
        * rewrite app_assoc. apply plain_line. apply plain_app; [apply lit_ok; vm_compute; reflexivity|apply plain_nat].
      + apply in_map_iff in I. destruct I as (f & <- & _). apply link_whole.
  Qed.
End Export.
