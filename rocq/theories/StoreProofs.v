(** Proofs about Grid.store. *)

From Coq Require Import ZArith NArith Ascii String Bool Lia List Permutation.
From Verif Require Import Py PyLemmas Heap HeapLemmas GridModel GridSpec DecompProofs Mpi MpiSpec MpiProofs
  GridIO FileSpec TextLemmas StoreSpec LoadParse.
Import ListNotations.
Open Scope list_scope.
Open Scope nat_scope.

Section Store.
  Context {F : FloatOps}.

  Lemma var_value_get : forall h f k, face_get h f k = var_value h f k.
  Proof. reflexivity. Qed.

  Lemma fmt_words : faithful_numbers -> forall vs w, In w (map fmt vs) -> word w.
  Proof.
    intros Hn vs w Hw. apply in_map_iff in Hw as (v & <- & _). destruct (Hn v) as (_ & H1 & H2). split; auto.
  Qed.

  Lemma vals_number : faithful_numbers -> forall vs, number_line (vals_str vs ++ [sp; nl]) vs.
  Proof.
    intros Hn vs. unfold number_line, vals_str. rewrite split_ws_join.
    - induction vs as [|v vs IH]; cbn [map]; constructor; auto. apply Hn.
    - apply fmt_words. auto.
    - reflexivity.
  Qed.

  Lemma word_plain : forall w c, word w -> In c w -> c <> nl /\ c <> cr /\ c <> sp.
  Proof.
    intros w c [_ H] Hc. specialize (H c Hc).
    repeat split; intros ->; vm_compute in H; discriminate.
  Qed.

  Lemma join_chars : forall ws c, (forall w, In w ws -> word w) -> In c (join [sp] ws) -> c <> nl /\ c <> cr.
  Proof.
    intros ws c Hw. induction ws as [|w ws IH]; [intros []|]. destruct ws as [|w2 ws].
    - cbn [join]. intros Hc. destruct (word_plain w c) as (? & ? & _); auto. apply Hw. simpl. auto.
    - rewrite join_cons. intros Hc. apply in_app_iff in Hc as [Hc|Hc].
      + destruct (word_plain w c) as (? & ? & _); auto. apply Hw. simpl. auto.
      + destruct Hc as [<-|Hc]; [split; discriminate|]. apply IH; auto. intros; apply Hw; simpl in *; auto.
  Qed.

  Lemma vals_line : faithful_numbers -> forall vs, whole_line (vals_str vs ++ [sp; nl]).
  Proof.
    intros Hn vs. exists (vals_str vs ++ [sp]). rewrite <- app_assoc. split; [reflexivity|].
    intros c Hc. apply in_app_iff in Hc as [Hc|[<-|[]]]; [|split; discriminate].
    unfold vals_str in Hc. eapply join_chars; eauto. apply fmt_words. auto.
  Qed.

  (** Decides that a literal has no line breaks. *)
  Lemma lit_plain : forall s, forallb (fun c => negb (Ascii.eqb c nl) && negb (Ascii.eqb c cr)) s = true ->
    forall c, In c s -> c <> nl /\ c <> cr.
  Proof.
    intros s H c Hc. rewrite forallb_forall in H. specialize (H c Hc). apply andb_true_iff in H as [H1 H2].
    split; intros ->; rewrite Ascii.eqb_refl in *; discriminate.
  Qed.

  Definition plain (s : str) : Prop := forall c, In c s -> c <> nl /\ c <> cr.

  Lemma plain_app : forall a b, plain a -> plain b -> plain (a ++ b).
  Proof. intros a b Ha Hb c Hc. apply in_app_iff in Hc as [?|?]; auto. Qed.

  Lemma plain_nat : forall n, plain (nat_str n).
  Proof. intros n c Hc. destruct (word_plain _ _ (word_digits n) Hc) as (? & ? & _). auto. Qed.

  Lemma plain_line : forall s, plain s -> whole_line (s ++ [nl]).
  Proof. intros s H. exists s. auto. Qed.

  Lemma plain_of_name : forall s, plain_name s -> plain s.
  Proof. intros s H c Hc. destruct (H c Hc) as (_ & ? & ?). auto. Qed.

  Lemma plain_of_var : forall s, plain_var s -> plain s.
  Proof.
    intros s [H0 H] c Hc. destruct (word_plain s c) as (? & ? & _); auto.
    split; auto. intros x Hx. apply H. auto.
  Qed.

  Lemma plain_join : forall sep ws, plain sep -> (forall w, In w ws -> plain w) -> plain (join sep ws).
  Proof.
    intros sep ws Hs. induction ws as [|w ws IH]; intros Hw; [intros c []|]. destruct ws as [|w2 ws].
    - apply Hw. simpl. auto.
    - rewrite join_cons. apply plain_app; [apply Hw; simpl; auto|]. apply plain_app; auto.
      apply IH. intros; apply Hw; simpl in *; auto.
  Qed.

  Ltac plain_tac := repeat apply plain_app; auto using plain_nat;
    try (intros ? ?; eapply lit_plain; [|eassumption]; reflexivity).

  (** The connectivity line of one face. *)
  Lemma conn_str_ok : forall h tbl f pts zn,
    pts = map (n_p h) zn ->
    (forall k x, nth_error zn k = Some x -> py_get tbl (n_glo h x) = Ok (Z.of_nat k)) ->
    incl (f_nodes h f) zn -> length (f_nodes h f) = 3 ->
    exists line, conn_str h tbl f = Ok line /\ conn_line pts (map (n_p h) (f_nodes h f)) line /\ whole_line line.
  Proof.
    intros h tbl f pts zn -> Ht Hi H3. unfold conn_str.
    destruct (local_ids_ok _ _ _ Ht (f_nodes h f) Hi) as (ks & -> & Hk). cbn [rbind].
    destruct (f_nodes h f) as [|x [|y [|w [|]]]]; try discriminate H3. unfold positions in Hk.
    inv Hk. inv H4. inv H6. inv H7. destruct H2 as [P1 Q1], H1 as [P2 Q2], H4 as [P3 Q3].
    assert (L : forall k v, (0 <= k)%Z -> nth_error zn (Z.to_nat k) = Some v -> (Z.to_nat k < length zn)).
    { intros k v _ E. apply nth_error_Some. congruence. }
    pose proof (L _ _ P1 Q1). pose proof (L _ _ P2 Q2). pose proof (L _ _ P3 Q3).
    eexists. split; [reflexivity|]. cbn [map join].
    assert (Zs : forall k, (0 <= k)%Z -> Z_str (k + 1) = nat_str (S (Z.to_nat k))).
    { intros k Hk. rewrite <- Z_str_nat. f_equal. lia. }
    rewrite !Zs by auto. split.
    - exists (S (Z.to_nat y0)), (S (Z.to_nat y1)), (S (Z.to_nat y2)). split; [rewrite <- !app_assoc; reflexivity|].
      rewrite map_length. repeat (split; [lia|]). cbn [map Nat.sub].
      replace (Z.to_nat y0 - 0) with (Z.to_nat y0) by lia. replace (Z.to_nat y1 - 0) with (Z.to_nat y1) by lia.
      replace (Z.to_nat y2 - 0) with (Z.to_nat y2) by lia.
      rewrite !(map_nth_error (n_p h) _ _ Q1), !(map_nth_error (n_p h) _ _ Q2), !(map_nth_error (n_p h) _ _ Q3).
      reflexivity.
    - apply plain_line. rewrite <- ?app_assoc. plain_tac.
  Qed.

  (** One zone. *)
  Lemma store_zone_ok : forall h vars tbl z, faithful_numbers -> plain_name (z_name h z) ->
    glo_ok (n_glo h) (length tbl) (z_nodes h z) ->
    (forall f, In f (z_faces h z) -> incl (f_nodes h f) (z_nodes h z) /\ length (f_nodes h f) = 3) ->
    exists ls tbl', store_zone h vars (3 + length vars) tbl z = Ok (concat ls, tbl') /\
      length tbl' = length tbl /\ zone_lines h vars z ls /\ (forall l, In l ls -> whole_line l).
  Proof.
    intros h vars tbl z Hn Hz Hg Hf. unfold store_zone.
    destruct (locate_ok (n_glo h) (z_nodes h z) tbl 0 Hg) as (tbl' & -> & Hl & Ht & _). cbn [rbind].
    assert (Hc : exists conn, rmap (conn_str h tbl') (z_faces h z) = Ok conn /\
       Forall2 (fun f line => conn_line (map (n_p h) (z_nodes h z)) (map (n_p h) (f_nodes h f)) line)
        (z_faces h z) conn /\ forall l, In l conn -> whole_line l).
    { induction (z_faces h z) as [|f fs IH]; [exists []; repeat split; try constructor; intros l []|].
      destruct IH as (conn & E & H1 & H2); [intros; apply Hf; simpl; auto|].
      destruct (Hf f) as [Hi H3]; [simpl; auto|].
      destruct (conn_str_ok h tbl' f _ _ eq_refl Ht Hi H3) as (line & E1 & H4 & H5).
      exists (line :: conn). cbn [rmap]. rewrite E1, E. split; [reflexivity|]. split; [constructor; auto|].
      intros l [<-|Hl']; auto. }
    destruct Hc as (conn & -> & Hc1 & Hc2). cbn [rbind].
    exists ([lit "ZONE T=""" ++ z_name h z ++ lit """" ++ [nl];
            lit "NODES=" ++ nat_str (length (z_nodes h z)) ++ [nl];
            lit "ELEMENTS=" ++ nat_str (length (z_faces h z)) ++ [nl];
            lit "DATAPACKING=BLOCK" ++ [nl];
            lit "ZONETYPE=FETRIANGLE" ++ [nl];
            lit "VARLOCATION=([4-" ++ nat_str (3 + length vars) ++ lit "]=CELLCENTERED)" ++ [nl];
            vals_str (nodes_coord_slice h z 0) ++ [sp; nl];
            vals_str (nodes_coord_slice h z 1) ++ [sp; nl];
            vals_str (nodes_coord_slice h z 2) ++ [sp; nl]] ++
            map (fun e => vals_str (faces_data_slice h z e) ++ [sp; nl]) vars ++ conn), tbl'.
    split; [|split; [auto|split]].
    - do 2 f_equal. rewrite !concat_app. cbn [concat map]. unfold varlocation.
      rewrite ?app_nil_r. rewrite <- ?app_assoc. reflexivity.
    - do 5 eexists. split; [reflexivity|].
      assert (Hco : forall i, i < 3 -> nodes_coord_slice h z i =
         map (fun n => let '(x, y, w) := n_p h n in nth i [x; y; w] x) (z_nodes h z)).
      { intros i Hi. unfold nodes_coord_slice. apply map_ext. intros n. destruct (n_p h n) as [[x y] w].
        destruct i as [|[|[|]]]; try lia; reflexivity. }
      split; [rewrite Hco by lia; apply vals_number; auto|].
      split; [rewrite Hco by lia; apply vals_number; auto|].
      split; [rewrite Hco by lia; apply vals_number; auto|].
      split; [|auto].
      clear Hco. induction vars as [|k vars IH]; cbn [map]; constructor; auto.
      change (number_line (vals_str (faces_data_slice h z k) ++ [sp; nl]) (faces_data_slice h z k)).
      apply vals_number. auto.
    - intros l Hin. apply in_app_iff in Hin as [Hin|Hin].
      + cbn [In] in Hin. repeat destruct Hin as [<-|Hin];
          try (apply vals_line; auto); rewrite ?app_assoc; try apply plain_line; plain_tac;
          auto using plain_of_name. destruct Hin.
      + apply in_app_iff in Hin as [Hin|Hin]; auto.
        apply in_map_iff in Hin as (k & <- & _). apply vals_line. auto.
  Qed.

  Lemma store_zones_ok : forall h vars zs tbl, faithful_numbers ->
    (forall z, In z zs -> plain_name (z_name h z)) ->
    (forall z, In z zs -> glo_ok (n_glo h) (length tbl) (z_nodes h z)) ->
    (forall z f, In z zs -> In f (z_faces h z) -> incl (f_nodes h f) (z_nodes h z) /\ length (f_nodes h f) = 3) ->
    exists blocks, store_zones h vars (3 + length vars) tbl zs = Ok (concat (concat blocks)) /\
      Forall2 (zone_lines h vars) zs blocks /\ (forall l, In l (concat blocks) -> whole_line l).
  Proof.
    intros h vars zs. induction zs as [|z zs IH]; intros tbl Hn Hp Hg Hf.
    - exists []. split; [reflexivity|]. split; [constructor|intros l []].
    - cbn [store_zones].
      destruct (store_zone_ok h vars tbl z Hn) as (ls & tbl' & -> & Hl & Hz & Hw).
      { apply Hp. simpl. auto. } { apply Hg. simpl. auto. } { intros f. apply Hf. simpl. auto. }
      cbn [rbind fst snd].
      destruct (IH tbl' Hn) as (blocks & -> & Hz' & Hw').
      { intros; apply Hp; simpl; auto. } { intros; rewrite Hl; apply Hg; simpl; auto. }
      { intros y f Hy. apply Hf. simpl. auto. }
      exists (ls :: blocks). split; [|split].
      + cbn [rbind concat]. rewrite concat_app. reflexivity.
      + constructor; auto.
      + intros l Hin. cbn [concat] in Hin. apply in_app_iff in Hin as [?|?]; auto.
  Qed.

  Lemma head_whole : forall h vars, plain_name (g_name h) -> (forall k, In k vars -> plain_var k) ->
    forall l, In l (head_lines h vars) -> whole_line l.
  Proof.
    intros h vars Hn Hv l Hl. unfold head_lines in Hl. cbn [In] in Hl.
    destruct Hl as [<-|[<-|[<-|[]]]].
    - apply plain_line. plain_tac.
    - rewrite ?app_assoc. apply plain_line. plain_tac. auto using plain_of_name.
    - rewrite ?app_assoc. apply plain_line. apply plain_app; [plain_tac|]. apply plain_join; [plain_tac|].
      intros w Hw. apply in_map_iff in Hw as (k & <- & Hk). apply in_app_iff in Hk as [Hk|Hk].
      + cbn in Hk. destruct Hk as [<-|[<-|[<-|[]]]]; plain_tac.
      + plain_tac. auto using plain_of_var.
  Qed.

  (** The whole file. *)
  Theorem store_ok : forall h, faithful_numbers -> grid_ok h -> zone_lists_ok h -> numbered h -> writable h ->
    exists text blocks, store h = Ok text /\
      file_lines text = head_lines h (grid_vars h) ++ concat blocks /\
      Forall2 (zone_lines h (grid_vars h)) (g_zones h) blocks.
  Proof.
    intros h Hnum Hok Hl Hnb (Hfc & Hgn & Hzn & Hv & _).
    unfold grid_vars in *. destruct (g_faces h) as [|f0 fs] eqn:Ef; [congruence|].
    set (vars := keys (f_data h f0)) in *.
    destruct (store_zones_ok h vars (g_zones h) (minus_ones (length (g_nodes h))) Hnum Hzn) as (blocks & E & Hz & Hw).
    { intros z Hz. unfold minus_ones. rewrite repeat_length. destruct Hnb as [Hn _].
      destruct (Hl z Hz) as [Hs _]. eapply glo_ok_perm; eauto. }
    { intros z f Hz Hf. split; [apply (zone_face_incl h z f Hok Hl Hz Hf)|].
      destruct Hok as [Ht Hzo]. apply (t_face_nodes h Ht). apply (zo_faces h Hzo z f Hz) in Hf. apply Hf. }
    exists (concat (head_lines h vars ++ concat blocks)), blocks.
    split; [|split; [|auto]].
    - unfold store. rewrite Ef. change (py_get (f0 :: fs) 0) with (Ok f0). cbn [rbind]. fold vars.
      rewrite app_length, map_length. cbn [length]. change (3 + length vars) with (S (S (S (length vars)))) in E.
      cbn [plus]. rewrite E. cbn [rbind]. f_equal. rewrite concat_app. unfold head_lines. cbn [concat].
      rewrite ?app_nil_r. rewrite <- ?app_assoc. reflexivity.
    - apply file_lines_concat. intros l Hin. apply in_app_iff in Hin as [Hin|Hin]; auto.
      eapply head_whole; eauto.
  Qed.

  (** A grid without faces cannot be stored. *)
  Theorem store_empty : forall h, g_faces h = [] -> store h = Raise EIndexError.
  Proof. intros h E. unfold store. rewrite E. reflexivity. Qed.
End Store.
