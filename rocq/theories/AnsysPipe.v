(** Further proofs about ANSYS files: requested columns, short zones, the whole way from
    data in nodes to a file for Grid.load. *)

From Coq Require Import ZArith Reals Bool List Lia String Ascii Sorted.
From Verif Require Import Py PyLemmas TextLemmas Heap GridSpec FileSpec Geom Convert ConvertSpec Ansys AnsysSpec AnsysText AnsysProofs AnsysMore AnsysExportSpec AnsysExport AnsysCases.
Import ListNotations.
Open Scope list_scope.
Open Scope nat_scope.

(* ================================================================ *)
(** ** Requested columns *)

Lemma unquote_name : forall s t, ~ In dquote s -> ~ In dquote t -> remove_char dquote (quoted s ++ t) = s ++ t.
Proof.
  intros s t Hs Ht. unfold quoted. rewrite !remove_char_app.
  change (remove_char dquote [dquote]) with (@nil ascii). rewrite !remove_char_none by auto. rewrite app_nil_r. reflexivity.
Qed.

Lemma column_kept : forall snames raws cols i name t, columns snames (map (remove_char dquote) raws) cols ->
  In name snames -> ~ In dquote name -> nth_error raws i = Some (quoted name ++ t) -> ~ In dquote t -> (t = [] \/ List.length name <> 1) -> In i cols.
Proof.
  intros snames raws cols i name t [_ H] In_ Qn E Qt Ht. apply H. exists (name ++ t). split.
  - rewrite nth_error_map, E. cbn [option_map]. rewrite unquote_name by auto. reflexivity.
  - exists name. split; auto. destruct (Nat.eq_dec (List.length name) 1) as [L|L].
    + left. split; auto. destruct Ht as [->|Ht]; [rewrite app_nil_r; auto|contradiction].
    + right. split; auto. exists [], t. reflexivity.
Qed.

(** Requested names in the order of the request. *)
Lemma columns_fun : forall snames fnames c1 c2, columns snames fnames c1 -> columns snames fnames c2 -> c1 = c2.
Proof.
  intros snames fnames c1 c2 [S1 H1] [S2 H2].
  assert (E : forall i, In i c1 <-> In i c2) by (intros i; rewrite H1, H2; tauto). clear H1 H2.
  revert c2 S2 E. induction S1 as [|x l S1 IH F1]; intros c2 S2 E.
  - destruct c2 as [|y c2]; auto. exfalso. apply (E y). left; auto.
  - destruct S2 as [|y l2 S2 F2]; [exfalso; apply (E x); left; auto|].
    rewrite Forall_forall in F1, F2.
    assert (x = y).
    { destruct (proj1 (E x) (or_introl eq_refl)) as [->|I]; auto. destruct (proj2 (E y) (or_introl eq_refl)) as [->|J]; auto.
      specialize (F2 _ I). specialize (F1 _ J). lia. }
    subst y. f_equal. apply IH; auto. intros i. split; intros I.
    + destruct (proj1 (E i) (or_intror I)) as [->|J]; auto. specialize (F1 _ I). lia.
    + destruct (proj2 (E i) (or_intror I)) as [->|J]; auto. specialize (F2 _ I). lia.
Qed.

(* ================================================================ *)
(** ** Short zones *)

Lemma zones_short : forall zs ls n e m r, Forall plain ls -> is_str_meta m = true -> List.length ls < n + e ->
  filter_zones zs n e (ls ++ m :: r) = Raise EException.
Proof.
  intros zs. induction ls as [|l ls IH]; intros n e m r H Hm L.
  - cbn [app filter_zones]. rewrite Hm. cbn in L. destruct n; [destruct e; [lia|]|]; reflexivity.
  - inversion H; subst. cbn [app filter_zones]. rewrite (plain_meta l) by auto. cbn [List.length] in L.
    destruct n as [|n]; [destruct e as [|e]; [lia|]|]; rewrite IH; auto; lia.
Qed.

Lemma vars_short : forall sn k ls n e m r, Forall plain ls -> is_str_meta m = true -> List.length ls < n + e ->
  filter_variables sn (Some k) n e (ls ++ m :: r) = Raise EException.
Proof.
  intros sn k. induction ls as [|l ls IH]; intros n e m r H Hm L.
  - cbn [app filter_variables]. rewrite Hm. cbn in L. destruct n; [destruct e; [lia|]|]; reflexivity.
  - inversion H; subst. cbn [app filter_variables]. rewrite (plain_meta l) by auto. cbn [List.length] in L.
    destruct n as [|n]; [destruct e as [|e]; [lia|]|]; rewrite IH; auto; lia.
Qed.

(** A zone that is to be kept, with fewer rows than it declares, before another header. *)
Theorem short_zone_reported : forall zs ps h name n e ls m r,
  Forall (fun z => ~ In dquote z) zs -> Forall good_piece ps ->
  occurs (lit "ZONE") h -> ~ occurs (lit "TITLE") h -> ~ occurs (lit "VARIABLES") h -> names_zone h name -> In name zs -> declares h n e ->
  Forall plain ls -> List.length ls < n + e ->
  (occurs (lit "TITLE") m \/ occurs (lit "VARIABLES") m \/ occurs (lit "ZONE") m) ->
  filter_zones zs 0 0 (file_of ps ++ h :: ls ++ m :: r) = Raise EException.
Proof.
  intros zs ps h name n e ls m r Q G Z T V N I D P L M.
  assert (Hm : is_str_meta m = true).
  { unfold is_str_meta, is_str_title, is_str_variables, is_str_zone.
    destruct M as [M|[M|M]]; apply occurs_true in M; rewrite M; rewrite ?orb_true_r; reflexivity. }
  assert (Zh : is_str_zone h = true) by (apply occurs_true; auto).
  assert (B : filter_zones zs 0 0 (h :: ls ++ m :: r) = Raise EException).
  { cbn [filter_zones]. unfold is_str_meta. rewrite Zh, orb_true_r. unfold is_str_title, is_str_variables.
    rewrite (proj2 (contains_not _ _) T), (proj2 (contains_not _ _) V), (counts_ok _ _ _ D). cbn [Nat.ltb Nat.leb orb rbind fst snd].
    rewrite (proj2 (extract_ok zs h name N Zh Q) I). rewrite zones_short; auto. }
  induction ps as [|p ps IH]; [exact B|]. inversion G as [|? ? Gp Gs]; subst. specialize (IH Gs).
  destruct p as [l|b]; cbn [good_piece] in Gp.
  - unfold file_of. cbn [flat_map piece_lines app filter_zones]. fold (file_of ps).
    destruct (head_meta l Gp) as [-> [Tl|[Tl Vl]]]; rewrite Tl; try rewrite Vl; rewrite IH; reflexivity.
  - destruct (block_meta b Gp) as (Mb & Tb & Vb & Zb & C). destruct Gp as (_ & _ & _ & Nb & _ & Pn & Pe).
    unfold file_of. cbn [flat_map piece_lines]. fold (file_of ps). unfold block_lines. cbn [app filter_zones]. rewrite Mb, Tb, Vb, C. cbn [Nat.ltb Nat.leb orb rbind fst snd].
    destruct (is_str_zone_to_extract zs (b_head b)).
    + rewrite <- !app_assoc.
      assert (S : forall ks a e, Forall plain ks -> filter_zones zs 0 e a = Raise EException -> filter_zones zs (List.length ks) e (ks ++ a) = Raise EException).
      { clear. induction ks as [|k ks IHk]; intros a e Hk Ha; [exact Ha|]. inversion Hk; subst. cbn [List.length app filter_zones]. rewrite (plain_meta k) by auto. rewrite IHk; auto. }
      assert (S0 : forall ks a, Forall plain ks -> filter_zones zs 0 0 a = Raise EException -> filter_zones zs 0 (List.length ks) (ks ++ a) = Raise EException).
      { clear. induction ks as [|k ks IHk]; intros a Hk Ha; [exact Ha|]. inversion Hk; subst. cbn [List.length app filter_zones]. rewrite (plain_meta k) by auto. rewrite IHk; auto. }
      rewrite S; auto.
    + rewrite <- !app_assoc, !zones_skip by auto. exact IH.
Qed.

(** The last zone of a file. *)
Lemma last_zone_short : filter_zones [lit "wing"] 0 0 [title; wing_head; ln "0 0 0 271"] = Ok [title; wing_head; ln "0 0 0 271"].
Proof. vm_compute. reflexivity. Qed.

(* ================================================================ *)
(** ** From data in nodes to data in faces *)

Lemma f2_len : forall A B (P : A -> B -> Prop) l l', Forall2 P l l' -> List.length l = List.length l'.
Proof. intros A B P l l' H. induction H; cbn; auto. Qed.

Lemma loaded_exportable : forall fl rv b z, loaded_zone fl rv b z -> (forall x, In x (b_name b) -> x <> eqsign /\ x <> nl /\ x <> cr) -> exportable z.
Proof.
  intros fl rv b z (Et & Fn & quads & groups & Fq & Fg & Ef) Hn. split; [|rewrite Et; auto].
  rewrite Ef. rewrite (f2_len _ _ _ _ _ Fn) in Fq. clear Ef Et Fn Hn. revert groups Fg.
  induction Fq as [|l q ls qs Q Fq IH]; intros groups Fg; inversion Fg as [|? g ? gs S Fg']; subst; [constructor|].
  cbn [List.concat]. apply Forall_app. split; [|apply IH; auto]. destruct S as (_ & _ & S). destruct Q as [_ Q].
  assert (C : forall k, In k (ConvertSpec.corners q) -> k < List.length (fz_nodes z)).
  { revert Q. generalize (ConvertSpec.corners q). clear. intros cs Q. induction Q as [|s k ss ks [_ H] Q IH]; intros i I; [destruct I|]. destruct I as [<-|I]; auto. }
  eapply Forall_impl; [|exact S]. intros [[a b'] c] I. repeat split; apply C; apply I; cbn; auto.
Qed.

Theorem nodes_to_faces : forall {F : FloatOps} fl fm rd rv ps,
  (forall x, word (fm x)) -> (forall x, prs (fm x) = Some (rd x)) ->
  Forall good_piece ps -> Forall (readable fl) (blocks_of ps) ->
  (forall b x, In b (blocks_of ps) -> In x (b_name b) -> x <> eqsign /\ x <> nl /\ x <> cr) ->
  exists zs zrs, load_nodes_data fl rv 0 0 [] (file_of ps) = Ok zs /\ Forall2 (loaded_zone fl rv) (blocks_of ps) zs /\
    Forall2 (exported rd) zs zrs /\ file_form [] (file_lines (List.concat (export fm zs))) (map EZone zrs).
Proof.
  intros F fl fm rd rv ps Hw Hp G W Hn. destruct (load_nodes_ok fl rv ps G W) as (zs & E & L).
  assert (X : Forall exportable zs).
  { clear -L Hn. revert Hn. induction L as [|b z bs zs Z L IH]; intros Hn; constructor.
    - eapply loaded_exportable; eauto. intros x I. apply (Hn b x); [left; auto|auto].
    - apply IH. intros b' x I. apply Hn. right; auto. }
  destruct (export_form fm rd Hw Hp zs X) as (zrs & Fx & Ff). exists zs, zrs. auto.
Qed.
