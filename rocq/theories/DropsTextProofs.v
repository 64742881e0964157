(** Proofs about the air file and the file of trajectories. *)

From Coq Require Import ZArith Reals Bool List Lia String Ascii.
From Verif Require Import Py PyLemmas TextLemmas Heap HeapLemmas GridModel GridSpec GridIO FileSpec LoadParse LoadPlace LoadEdges LoadMain LoadProps StoreProofs
  Geom Convert Ansys AnsysExport Drops DropsSpec DropsMore DropsText DropsTextSpec.
Import ListNotations.
Open Scope list_scope.
Open Scope nat_scope.

(* ---------------------------------------------------------------- *)
(** ** The air file *)

Lemma not_mentions : forall k l, ~ mentions k l -> contains (lit k) l = false.
Proof. unfold mentions. intros k l H. destruct (contains (lit k) l); congruence. Qed.

Lemma skip_word : forall l i s, nth_word l (S i) = Some s -> py_get (skipn 1 (split_ws l)) (Z.of_nat i) = Ok s.
Proof. intros l i s H. apply py_get_nat. unfold nth_word in H. destruct (split_ws l); [discriminate|exact H]. Qed.

Lemma num_get : forall fl l i x, num_word fl l i x -> exists s, py_get (split_ws l) (Z.of_nat i) = Ok s /\ fl s = Ok x.
Proof. intros fl l i x (s & H & E). exists s. split; auto. apply py_get_nat. exact H. Qed.

Lemma air_row_ok : forall fl l s, sample_row fl l s -> air_row fl l = Ok s.
Proof.
  intros fl l [[x y z] [u v w]] (H0 & H1 & H2 & H5 & H6 & H7). cbn [fst snd vx vy vz] in *.
  apply num_get in H0 as (s0 & E0 & F0). apply num_get in H1 as (s1 & E1 & F1). apply num_get in H2 as (s2 & E2 & F2).
  apply num_get in H5 as (s5 & E5 & F5). apply num_get in H6 as (s6 & E6 & F6). apply num_get in H7 as (s7 & E7 & F7).
  unfold air_row. cbn [Z.of_nat Pos.of_succ_nat Pos.succ] in *.
  rewrite E0. cbn [rbind]. rewrite F0. cbn [rbind]. rewrite E1. cbn [rbind]. rewrite F1. cbn [rbind]. rewrite E2. cbn [rbind]. rewrite F2. cbn [rbind].
  rewrite E5. cbn [rbind]. rewrite F5. cbn [rbind]. rewrite E6. cbn [rbind]. rewrite F6. cbn [rbind]. rewrite E7. cbn [rbind]. rewrite F7. reflexivity.
Qed.

Lemma air_rows_ok : forall fl rows samples ls, Forall2 (sample_row fl) rows samples ->
  air_rows fl (List.length rows) (rows ++ ls) = Ok (samples, ls).
Proof.
  intros fl rows samples ls H. induction H as [|l s rows samples Hs _ IH]; [reflexivity|].
  cbn [List.length app air_rows readline]. rewrite (air_row_ok _ _ _ Hs). cbn [rbind]. rewrite IH. reflexivity.
Qed.

Lemma skipn_exact : forall A (a b : list A), skipn (List.length a) (a ++ b) = b.
Proof. intros A a b. rewrite skipn_app, skipn_all, Nat.sub_diag. reflexivity. Qed.

Lemma read_air_ok : forall fl ls ds, air_form fl ls ds -> forall fuel, List.length ls <= fuel -> read_air fl fuel ls = Ok ds.
Proof.
  intros fl ls ds H. induction H as [|l ls ds H _ IH|l ls ds H _ IH|l ls ds H1 H2 H3 _ IH|l rows links ls samples ds Hh Hr _ IH|l rows links ls ds Hh _ IH]; intros fuel Hf.
  - destruct fuel; reflexivity.
  - cbn in Hf. destruct fuel as [|fuel]; [lia|]. cbn [read_air]. rewrite H. apply IH. lia.
  - cbn in Hf. destruct fuel as [|fuel]; [lia|]. cbn [read_air]. rewrite H. destruct (contains (lit "TITLE=") l); apply IH; lia.
  - cbn in Hf. destruct fuel as [|fuel]; [lia|]. cbn [read_air]. rewrite !not_mentions by auto. apply IH. lia.
  - cbn in Hf. destruct fuel as [|fuel]; [lia|]. cbn [read_air]. destruct Hh as ((T & Vr & Zn) & (w & Hw & Fb) & (s5 & H5 & N5) & (s8 & H8 & N8)).
    rewrite (not_mentions _ _ T), (not_mentions _ _ Vr), Zn. apply skip_word in Hw, H5, H8. cbn [Z.of_nat Pos.of_succ_nat Pos.succ] in Hw, H5, H8.
    rewrite Hw. cbn [rbind]. rewrite Fb, H5. cbn [rbind]. rewrite N5. cbn [rbind]. rewrite H8. cbn [rbind]. rewrite N8. cbn [rbind].
    rewrite !Nat2Z.id, (air_rows_ok _ _ _ _ Hr). cbn [rbind fst snd]. rewrite skipn_exact, IH; [reflexivity|]. rewrite !app_length in Hf. lia.
  - cbn in Hf. destruct fuel as [|fuel]; [lia|]. cbn [read_air]. destruct Hh as ((T & Vr & Zn) & (w & Hw & Fb) & (s5 & H5 & N5) & (s8 & H8 & N8)).
    rewrite (not_mentions _ _ T), (not_mentions _ _ Vr), Zn. apply skip_word in Hw, H5, H8. cbn [Z.of_nat Pos.of_succ_nat Pos.succ] in Hw, H5, H8.
    rewrite Hw. cbn [rbind]. rewrite (not_mentions _ _ Fb), H5. cbn [rbind]. rewrite N5. cbn [rbind]. rewrite H8. cbn [rbind]. rewrite N8. cbn [rbind].
    rewrite app_assoc. replace (Z.to_nat (Z.of_nat (List.length rows) + Z.of_nat (List.length links))) with (List.length (rows ++ links)) by (rewrite app_length; lia).
    rewrite skipn_exact. apply IH. rewrite !app_length in Hf. lia.
Qed.

Lemma box_of_some : forall ps, ps <> [] -> exists b, box_of ps = Ok b.
Proof. intros [|p ps] H; [congruence|]. eexists. reflexivity. Qed.

Lemma read_vel_field_ok : forall fl ls ds, air_form fl ls ds -> ds <> [] ->
  exists b, box_of (map fst ds) = Ok b /\ read_vel_field fl ls = Ok (Space ds b).
Proof.
  intros fl ls ds H N. destruct (box_of_some (map fst ds)) as [b Eb]; [destruct ds; [congruence|discriminate]|].
  exists b. split; auto. unfold read_vel_field. rewrite (read_air_ok _ _ _ H) by auto. cbn [rbind]. unfold make_space. rewrite Eb. reflexivity.
Qed.

Lemma read_vel_field_empty : forall fl ls, air_form fl ls [] -> read_vel_field fl ls = Raise EValueError.
Proof. intros fl ls H. unfold read_vel_field. rewrite (read_air_ok _ _ _ H) by auto. reflexivity. Qed.

(** Rows that are missing at the end of the file. *)
Lemma air_rows_short : forall fl rows samples n, Forall2 (sample_row fl) rows samples -> List.length rows < n ->
  air_rows fl n rows = Raise EIndexError.
Proof.
  intros fl rows samples n H. revert n. induction H as [|l s rows samples Hs _ IH]; intros n Hn.
  - destruct n as [|n]; [cbn in Hn; lia|]. reflexivity.
  - cbn in Hn. destruct n as [|n]; [lia|]. cbn [air_rows readline]. rewrite (air_row_ok _ _ _ Hs). cbn [rbind]. rewrite IH by lia. reflexivity.
Qed.

(** A file in two parts, the first of which has the form of an air file. *)
Lemma read_air_app : forall fl ls ds more, air_form fl ls ds -> forall fuel, List.length (ls ++ more) <= fuel ->
  exists fuel', List.length more <= fuel' /\ read_air fl fuel (ls ++ more) = (do o <- read_air fl fuel' more; Ok (ds ++ o)).
Proof.
  intros fl ls ds more H.
  assert (G : forall A (x : res (list A)), x = (do o <- x; Ok ([] ++ o))) by (intros A [x|x]; reflexivity).
  induction H as [|l ls ds H _ IH|l ls ds H _ IH|l ls ds H1 H2 H3 _ IH|l rows links ls samples ds Hh Hr _ IH|l rows links ls ds Hh _ IH]; intros fuel Hf.
  - exists fuel. split; [exact Hf|apply G].
  - cbn in Hf. destruct fuel as [|fuel]; [lia|]. destruct (IH fuel ltac:(lia)) as (fuel' & L & E). exists fuel'. split; auto. cbn [app read_air]. rewrite H. exact E.
  - cbn in Hf. destruct fuel as [|fuel]; [lia|]. destruct (IH fuel ltac:(lia)) as (fuel' & L & E). exists fuel'. split; auto. cbn [app read_air]. rewrite H, E.
    destruct (contains (lit "TITLE=") l); reflexivity.
  - cbn in Hf. destruct fuel as [|fuel]; [lia|]. destruct (IH fuel ltac:(lia)) as (fuel' & L & E). exists fuel'. split; auto. cbn [app read_air]. rewrite !not_mentions by auto. exact E.
  - cbn in Hf. destruct fuel as [|fuel]; [lia|]. destruct (IH fuel) as (fuel' & L & E). { rewrite !app_length in *. lia. }
    exists fuel'. split; auto. cbn [app read_air]. destruct Hh as ((T & Vr & Zn) & (w & Hw & Fb) & (s5 & H5 & N5) & (s8 & H8 & N8)).
    rewrite (not_mentions _ _ T), (not_mentions _ _ Vr), Zn. apply skip_word in Hw, H5, H8. cbn [Z.of_nat Pos.of_succ_nat Pos.succ] in Hw, H5, H8.
    rewrite Hw. cbn [rbind]. rewrite Fb, H5. cbn [rbind]. rewrite N5. cbn [rbind]. rewrite H8. cbn [rbind]. rewrite N8. cbn [rbind].
    rewrite <- !app_assoc, !Nat2Z.id, (air_rows_ok _ _ _ _ Hr). cbn [rbind fst snd]. rewrite skipn_exact, E. destruct (read_air fl fuel' more); cbn [rbind]; rewrite <- ?app_assoc; reflexivity.
  - cbn in Hf. destruct fuel as [|fuel]; [lia|]. destruct (IH fuel) as (fuel' & L & E). { rewrite !app_length in *. lia. }
    exists fuel'. split; auto. cbn [app read_air]. destruct Hh as ((T & Vr & Zn) & (w & Hw & Fb) & (s5 & H5 & N5) & (s8 & H8 & N8)).
    rewrite (not_mentions _ _ T), (not_mentions _ _ Vr), Zn. apply skip_word in Hw, H5, H8. cbn [Z.of_nat Pos.of_succ_nat Pos.succ] in Hw, H5, H8.
    rewrite Hw. cbn [rbind]. rewrite (not_mentions _ _ Fb), H5. cbn [rbind]. rewrite N5. cbn [rbind]. rewrite H8. cbn [rbind]. rewrite N8. cbn [rbind].
    replace ((rows ++ links ++ ls) ++ more) with ((rows ++ links) ++ ls ++ more) by (rewrite <- !app_assoc; reflexivity). replace (Z.to_nat (Z.of_nat (List.length rows) + Z.of_nat (List.length links))) with (List.length (rows ++ links)) by (rewrite app_length; lia).
    rewrite skipn_exact. exact E.
Qed.

Lemma short_rows_reported : forall fl ls ds l n e rows samples, air_form fl ls ds -> brick_head l n e ->
  Forall2 (sample_row fl) rows samples -> List.length rows < n ->
  read_vel_field fl (ls ++ l :: rows) = Raise EIndexError.
Proof.
  intros fl ls ds l n e rows samples H Hh Hr Hn. unfold read_vel_field.
  destruct (read_air_app fl ls ds (l :: rows) H _ (le_n _)) as (fuel & L & E). rewrite E. destruct fuel as [|fuel]; [cbn in L; lia|].
  cbn [read_air]. destruct Hh as ((T & Vr & Zn) & (w & Hw & Fb) & (s5 & H5 & N5) & (s8 & H8 & N8)).
  rewrite (not_mentions _ _ T), (not_mentions _ _ Vr), Zn. apply skip_word in Hw, H5, H8. cbn [Z.of_nat Pos.of_succ_nat Pos.succ] in Hw, H5, H8.
  rewrite Hw. cbn [rbind]. rewrite Fb, H5. cbn [rbind]. rewrite N5. cbn [rbind]. rewrite H8. cbn [rbind]. rewrite N8. cbn [rbind].
  rewrite Nat2Z.id, (air_rows_short _ _ _ _ Hr Hn). reflexivity.
Qed.

(** Missing links at the end of the file are not noticed; the samples are complete. *)
Lemma short_links_accepted : forall fl ls ds l n e rows links samples, air_form fl ls ds -> brick_head l n e ->
  List.length rows = n -> List.length links <= e -> Forall2 (sample_row fl) rows samples -> samples <> [] ->
  exists b, read_vel_field fl (ls ++ l :: rows ++ links) = Ok (Space (ds ++ samples) b).
Proof.
  intros fl ls ds l n e rows links samples H Hh En Hl Hr Ns. unfold read_vel_field.
  destruct (read_air_app fl ls ds (l :: rows ++ links) H _ (le_n _)) as (fuel & L & E). rewrite E. destruct fuel as [|fuel]; [cbn in L; lia|].
  cbn [read_air]. destruct Hh as ((T & Vr & Zn) & (w & Hw & Fb) & (s5 & H5 & N5) & (s8 & H8 & N8)).
  rewrite (not_mentions _ _ T), (not_mentions _ _ Vr), Zn. apply skip_word in Hw, H5, H8. cbn [Z.of_nat Pos.of_succ_nat Pos.succ] in Hw, H5, H8.
  rewrite Hw. cbn [rbind]. rewrite Fb, H5. cbn [rbind]. rewrite N5. cbn [rbind]. rewrite H8. cbn [rbind]. rewrite N8. cbn [rbind].
  rewrite !Nat2Z.id, <- En, (air_rows_ok _ _ _ _ Hr). cbn [rbind fst snd]. rewrite skipn_all2 by auto.
  assert (E0 : read_air fl fuel [] = Ok []) by (destruct fuel; reflexivity). rewrite E0. cbn [rbind]. rewrite app_nil_r.
  destruct (box_of_some (map fst (ds ++ samples))) as [b Eb]. { destruct ds; [|discriminate]. destruct samples; [congruence|discriminate]. }
  exists b. unfold make_space. rewrite Eb. reflexivity.
Qed.

(* ---------------------------------------------------------------- *)
(** ** A file whose first face repeats a corner cannot be loaded *)

Section Degenerate.
  Context {F : FloatOps}.

  Lemma near_rc : forall h a b, n_rc h a = n_rc h b -> is_near h a b = true.
  Proof. intros h a b E. unfold is_near, rc_eqb. rewrite E. destruct (rc_dec (n_rc h b) (n_rc h b)); congruence. Qed.

  (** The three links of a face whose third corner is near the first or the second one. *)
  Lemma degenerate_links : forall f a b c h, n_edges h a = [] -> n_edges h b = [] ->
    n_rc h c = n_rc h a \/ n_rc h c = n_rc h b ->
    exists h', for_each [(f, a, b); (f, a, c); (f, b, c)] run_task h = (Raise EException, h').
  Proof.
    intros f a b c h Ha Hb Hc. set (e := next_e h).
    assert (E0 : find_edge h a b = None) by (unfold find_edge; rewrite Ha; reflexivity).
    destruct (complex_link_new f a b h E0) as (h1 & E1 & A1 & A2 & A3 & A4 & A5 & A6 & A7 & A8).
    fold e in A1, A2, A3, A4, A5.
    assert (R1 : n_rc h1 = n_rc h) by (unfold restE in A8; congruence).
    assert (M : forall h', e_nodes h' e = [a; b] -> n_rc h' = n_rc h -> mem (is_near h' c) (e_nodes h' e) = true).
    { intros h' En Er. rewrite En. cbn [mem existsb]. destruct Hc as [Hc|Hc].
      - rewrite (near_rc h' c a) by congruence. reflexivity.
      - rewrite (near_rc h' c b) by congruence. rewrite orb_comm. reflexivity. }
    assert (N1 : e_nodes h1 e = [a; b]) by (rewrite A5, Nat.eqb_refl; reflexivity).
    assert (Fe : find_edge h1 a c = Some e).
    { unfold find_edge. rewrite A3, Ha, Nat.eqb_refl. cbn [app find]. rewrite (M h1); auto. }
    assert (L1 : List.length (e_faces h1 e) <> 2) by (rewrite A1, Nat.eqb_refl; discriminate).
    destruct (complex_link_found f a c h1 e Fe L1) as (h2 & E2 & B1 & B2 & B3 & B4 & B5 & B6 & B7 & B8).
    assert (R2 : n_rc h2 = n_rc h) by (unfold restE in B8; congruence).
    assert (Fb : find_edge h2 b c = Some e).
    { unfold find_edge. rewrite B3, A3, Hb, Nat.eqb_refl. cbn [app].
      assert (Mb : mem (is_near h2 c) (e_nodes h2 e) = true) by (apply M; [rewrite B5|]; auto).
      destruct (b =? a); cbn [app find]; rewrite Mb; reflexivity. }
    assert (L2 : List.length (e_faces h2 e) = 2) by (rewrite B1, Nat.eqb_refl, A1, Nat.eqb_refl; reflexivity).
    pose proof (complex_link_full f b c h2 e Fb L2) as E3.
    exists h2. cbn [for_each run_task]. rewrite (bind_run _ _ _ _ _ _ _ E1), (bind_run _ _ _ _ _ _ _ E2). unfold bind. rewrite E3. reflexivity.
  Qed.

  Lemma load_degenerate : forall merge text h evs x y z rest, file_form [] (file_lines text) evs ->
    file_faces (zones_of evs) = [x; y; z] :: rest -> z = x \/ z = y -> fst (load merge text h) = Raise EException.
  Proof.
    intros merge text h evs x y z rest Hf Hx Hd. destruct (load_events merge text h evs Hf) as (h1 & P & _ & _ & El). rewrite El.
    pose proof (holds_faces _ _ (placed_holds _ _ _ P)) as Hh. rewrite Hx in Hh.
    destruct (g_faces h1) as [|f fs] eqn:Eg; [discriminate|]. cbn [map] in Hh. injection Hh as Hn _.
    destruct (placed_nodes3 _ _ _ P f) as [L I]; [rewrite Eg; left; reflexivity|].
    destruct (f_nodes h1 f) as [|a [|b [|c [|]]]] eqn:En; try discriminate. cbn [map] in Hn. injection Hn as Ea Eb Ec.
    destruct P as (reps & Hr & _ & Hfr & _). pose proof (nr_edges _ _ _ _ Hr) as Ne.
    destruct (degenerate_links f a b c h1) as (h2 & E2).
    - apply Ne. apply I. left. reflexivity.
    - apply Ne. apply I. right. left. reflexivity.
    - destruct Hd; [left|right]; congruence.
    - assert (E3 : link_face_edges f h1 = (Raise EException, h2)).
      { rewrite link_face_edges_tasks by (rewrite En; reflexivity). unfold tasks_of. rewrite En. exact E2. }
      unfold finish. rewrite bind_gets, Eg. cbn [for_each]. unfold bind. rewrite E3. reflexivity.
  Qed.
End Degenerate.

(* ---------------------------------------------------------------- *)
(** ** The file of trajectories *)

Section Traj.
  Context {F : FloatOps}.
  Variables (fm : R -> str) (rd : R -> val).
  Hypothesis fm_word : forall x, word (fm x).
  Hypothesis fm_prs : forall x, prs (fm x) = Some (rd x).

  Lemma digit_chars : forall n c, In c (N_str n) -> is_digit c = true.
  Proof. intros n c H. pose proof (N_str_digits n) as D. rewrite forallb_forall in D. auto. Qed.

  Lemma Z_str_chars : forall z c, In c (Z_str z) -> c <> eqsign /\ c <> nl /\ c <> cr.
  Proof.
    assert (D : forall c, is_digit c = true -> c <> eqsign /\ c <> nl /\ c <> cr).
    { intros c H. repeat split; intros ->; discriminate H. }
    intros [|p|p] c H; cbn [Z_str] in H; try (apply D; eapply digit_chars; exact H).
    destruct H as [<-|H]; [repeat split; discriminate|]. apply D. eapply digit_chars. exact H.
  Qed.

  Definition tname (g : Z) : str := lit "Trajectory-" ++ Z_str g.

  Lemma tname_chars : forall g c, In c (tname g) -> c <> eqsign /\ c <> nl /\ c <> cr.
  Proof.
    intros g c H. apply in_app_iff in H. destruct H as [H|H]; [|eapply Z_str_chars; exact H].
    assert (G : forallb (fun c => negb (Ascii.eqb c eqsign) && negb (Ascii.eqb c nl) && negb (Ascii.eqb c cr)) (lit "Trajectory-") = true) by reflexivity.
    rewrite forallb_forall in G. specialize (G _ H). apply andb_true_iff in G as [G G3]. apply andb_true_iff in G as [G1 G2].
    repeat split; intros ->; rewrite Ascii.eqb_refl in *; discriminate.
  Qed.

  Lemma row_number : forall l, number_line (join (lit " ") (map fm l) ++ [nl]) (map rd l).
  Proof.
    intros l. unfold number_line. change (lit " ") with [sp]. rewrite split_ws_join; [| |reflexivity].
    - induction l; cbn; constructor; auto.
    - intros w I. apply in_map_iff in I as (x & <- & _). auto.
  Qed.

  Lemma row_whole : forall l, whole_line (join (lit " ") (map fm l) ++ [nl]).
  Proof.
    intros l. apply plain_line. apply plain_join.
    - apply lit_ok. reflexivity.
    - intros w I. apply in_map_iff in I as (x & <- & _). intros c Hc. destruct (word_plain (fm x) c (fm_word x) Hc) as (? & ? & _). auto.
  Qed.

  Lemma vars3_form : vars_line (lit "VARIABLES=" ++ join (lit ", ") (map (fun n => [dquote] ++ lit n ++ [dquote]) ["X"; "Y"; "Z"]%string) ++ [nl])
    (map lit ["X"; "Y"; "Z"]%string).
  Proof.
    split; [cbn; discriminate|]. split; [vm_compute; reflexivity|]. split; [vm_compute; reflexivity|].
    eexists. split; [reflexivity|]. vm_compute. reflexivity.
  Qed.

  Lemma title_form : title_line (lit "TITLE=" ++ [dquote] ++ lit "Trajectories" ++ [dquote; nl]) (lit "Trajectories").
  Proof. split; [cbn; discriminate|]. split; [reflexivity|]. eexists. split; reflexivity. Qed.

  Lemma leg_lines : forall n k, map (fun ii => nat_str (ii + 1) ++ lit " " ++ nat_str (ii + 2) ++ lit " " ++ nat_str (ii + 2) ++ [nl]) (seq n k) =
    map link_line (map (fun i => (i, i + 1, i + 1)) (seq n k)).
  Proof. intros n k. rewrite map_map. apply map_ext. intros i. unfold link_line. replace (i + 1 + 1) with (i + 2) by lia. reflexivity. Qed.

  Lemma dump_form : forall g tr rest, tr <> [] ->
    exists l ls, dump fm (tname g) tr ++ rest = l :: ls /\ zone_line l (tname g) /\
      zone_block (map lit ["X"; "Y"; "Z"]%string) ls (drawn rd g tr) rest.
  Proof.
    intros g tr rest Hn. eexists. eexists. split; [reflexivity|]. split; [apply zone_line_ok; apply tname_chars|].
    assert (Hc : ~ In eqsign (lit "NODES") /\ ~ In eqsign (lit "ELEMENTS")) by (split; apply eqs_no; reflexivity).
    assert (Lp : (Z.of_nat (List.length tr) - 1 = Z.of_nat (List.length tr - 1))%Z) by (destruct tr; [congruence|cbn [List.length]; lia]).
    unfold zone_block. rewrite leg_lines, Lp, Z_str_nat. fold (legs (List.length tr)).
    exists (lit "NODES=" ++ nat_str (List.length tr) ++ [nl]), (lit "ELEMENTS=" ++ nat_str (List.length tr - 1) ++ [nl]),
      (lit "DATAPACKING=BLOCK" ++ [nl]), (lit "ZONETYPE=FETRIANGLE" ++ [nl]), (lit "VARLOCATION=([4-3]=CELLCENTERED)" ++ [nl]).
    eexists. exists (Z.of_nat (List.length tr)), (Z.of_nat (List.length tr - 1)).
    exists (join (lit " ") (map fm (map vx tr)) ++ [nl]), (join (lit " ") (map fm (map vy tr)) ++ [nl]), (join (lit " ") (map fm (map vz tr)) ++ [nl]).
    exists (map rd (map vx tr)), (map rd (map vy tr)), (map rd (map vz tr)).
    eexists. exists [], []. eexists. exists (map link_line (legs (List.length tr))).
    split; [reflexivity|].
    split; [apply count_ok with (lit "NODES"); [reflexivity|apply Hc]|].
    split; [apply count_ok with (lit "ELEMENTS"); [reflexivity|apply Hc]|].
    split; [exists nl; reflexivity|]. split; [exists nl; reflexivity|]. split; [exists nl; reflexivity|].
    split; [reflexivity|]. split; [rewrite !map_map; reflexivity|].
    split; [apply row_number|]. split; [apply row_number|]. split; [apply row_number|].
    rewrite !Nat2Z.id.
    split; [cbn [drawn zr_pts]; apply map_length|].
    split.
    { intros i x y w E. cbn [drawn zr_pts] in E. rewrite nth_error_map in E. rewrite !map_map, !nth_error_map.
      destruct (nth_error tr i); [|discriminate]. cbn in *. injection E as <- <- <-. auto. }
    split; [reflexivity|]. split; [constructor|].
    split; [cbn [drawn zr_data]; apply repeat_length|].
    split. { intros i row E. cbn [drawn zr_data] in E. apply nth_error_In, repeat_spec in E. subst row. constructor. }
    assert (Ll : List.length (legs (List.length tr)) = List.length tr - 1) by (unfold legs; rewrite map_length, seq_length; reflexivity).
    split. { rewrite <- Ll, <- (map_length link_line). apply take_lines_app. }
    cbn [drawn zr_conn zr_pts]. rewrite map_length.
    assert (G : forall k n, n + k = List.length tr - 1 ->
      Forall2 (corner_line (List.length tr)) (map link_line (map (fun i => (i, i + 1, i + 1)) (seq n k))) (map (fun i => (i, i + 1, i + 1)) (seq n k))).
    { induction k as [|k IH]; intros n E; [constructor|]. cbn [seq map]. constructor; [apply link_ok; lia|]. apply IH. lia. }
    apply (G (List.length tr - 1) 0). lia.
  Qed.

  Theorem trajectories_form : forall glo trs, Forall (fun t => snd t <> []) trs ->
    file_form [] (file_lines (List.concat (trajectories_file fm glo trs)))
      (ETitle (lit "Trajectories") :: map (fun t => EZone (drawn rd (glo (fst t)) (snd t))) trs).
  Proof.
    intros glo trs H. rewrite file_lines_concat.
    - unfold trajectories_file. cbn [app]. apply ff_comment; [reflexivity|]. apply ff_title; [apply title_form|]. eapply ff_vars; [apply vars3_form|].
      induction H as [|t trs Ht H IH]; [constructor|]. cbn [map flat_map].
      destruct (dump_form (glo (fst t)) (snd t) (flat_map (fun t => dump fm (tname (glo (fst t))) (snd t)) trs) Ht) as (l & ls & El & Zl & Zb).
      unfold tname in El, Zl. rewrite El. eapply ff_zone; [exact Zl|exact Zb|exact IH].
    - intros l I. unfold trajectories_file in I. apply in_app_iff in I. destruct I as [I|I].
      + cbn [In] in I. destruct I as [<-|[<-|[<-|[]]]].
        * apply plain_line. apply lit_ok. reflexivity.
        * change (lit "TITLE=" ++ [dquote] ++ lit "Trajectories" ++ [dquote; nl]) with ((lit "TITLE=" ++ [dquote] ++ lit "Trajectories" ++ [dquote]) ++ [nl]). apply plain_line. apply lit_ok. reflexivity.
        * rewrite app_assoc. apply plain_line. apply lit_ok. vm_compute. reflexivity.
      + apply in_flat_map in I. destruct I as ([p tr] & It & I). rewrite Forall_forall in H. specialize (H _ It). cbn [fst snd] in *.
        unfold dump in I. apply in_app_iff in I. destruct I as [I|I].
        * cbn [In] in I. destruct I as [<-|[<-|[<-|[<-|[<-|[<-|[<-|[<-|[<-|[]]]]]]]]]].
          -- change (lit "ZONE T=" ++ [dquote] ++ (lit "Trajectory-" ++ Z_str (glo p)) ++ [dquote; nl]) with (lit "ZONE T=" ++ [dquote] ++ tname (glo p) ++ [dquote] ++ [nl]).
             rewrite !app_assoc. apply plain_line. repeat apply plain_app; try (apply lit_ok; vm_compute; reflexivity).
             intros c Ic. destruct (Z_str_chars (glo p) c Ic) as (_ & ? & ?). auto.
          -- rewrite app_assoc. apply plain_line. apply plain_app; [apply lit_ok; vm_compute; reflexivity|apply plain_nat].
          -- rewrite app_assoc. apply plain_line. apply plain_app; [apply lit_ok; vm_compute; reflexivity|].
             intros c Ic. destruct (Z_str_chars _ c Ic) as (_ & ? & ?). auto.
          -- apply plain_line; apply lit_ok; vm_compute; reflexivity.
          -- apply plain_line; apply lit_ok; vm_compute; reflexivity.
          -- apply plain_line; apply lit_ok; vm_compute; reflexivity.
          -- rewrite <- map_map. apply row_whole.
          -- rewrite <- map_map. apply row_whole.
          -- rewrite <- map_map. apply row_whole.
        * rewrite leg_lines in I. apply in_map_iff in I. destruct I as (f & <- & _). apply link_whole.
  Qed.

  (** The corners of the first leg. *)
  Lemma drawn_first : forall g p q tr, exists x y rest, file_faces [drawn rd g (p :: q :: tr)] = [x; y; y] :: rest.
  Proof. intros g p q tr. eexists. eexists. eexists. reflexivity. Qed.

  Lemma traj_faces_app : forall a b : list zone_rec, file_faces (a ++ b) = file_faces a ++ file_faces b.
  Proof. intros a b. unfold file_faces. apply flat_map_app. Qed.

  Lemma traj_first : forall glo trs, Forall (fun t => snd t <> []) trs -> Exists (fun t : nat * list vect => 2 <= List.length (snd t)) trs ->
    exists x y rest, file_faces (map (fun t => drawn rd (glo (fst t)) (snd t)) trs) = [x; y; y] :: rest.
  Proof.
    intros glo trs Hn H. induction trs as [|[p tr] trs IH]; [inversion H|]. apply Forall_cons_iff in Hn as [H0 Hn]. cbn [fst snd map] in *.
    destruct tr as [|a [|b tr]]; [congruence| |].
    - inversion H as [? ? E|? ? E]; subst; [cbn in E; lia|]. apply IH in E as (x & y & rest & E); auto. exists x, y, rest. exact E.
    - destruct (drawn_first (glo p) a b tr) as (x & y & rest & E). exists x, y. eexists.
      change (drawn rd (glo p) (a :: b :: tr) :: map (fun t => drawn rd (glo (fst t)) (snd t)) trs) with ([drawn rd (glo p) (a :: b :: tr)] ++ map (fun t => drawn rd (glo (fst t)) (snd t)) trs).
      rewrite traj_faces_app, E. reflexivity.
  Qed.

  Lemma zones_of_map : forall A (f : A -> zone_rec) l, zones_of (map (fun x => EZone (f x)) l) = map f l.
  Proof. intros A f l. induction l as [|x l IH]; [reflexivity|]. cbn [map]. rewrite <- IH. reflexivity. Qed.

  Theorem trajectories_not_loadable : forall glo trs, Forall (fun t => snd t <> []) trs ->
    Exists (fun t : nat * list vect => 2 <= List.length (snd t)) trs ->
    forall merge h, fst (load merge (List.concat (trajectories_file fm glo trs)) h) = Raise EException.
  Proof.
    intros glo trs Hn H merge h. destruct (traj_first glo trs Hn H) as (x & y & rest & E).
    eapply load_degenerate; [apply trajectories_form; exact Hn| |right; reflexivity].
    change (zones_of (ETitle (lit "Trajectories") :: map (fun t => EZone (drawn rd (glo (fst t)) (snd t))) trs)) with (zones_of (map (fun t => EZone (drawn rd (glo (fst t)) (snd t))) trs)).
    rewrite (zones_of_map _ (fun t => drawn rd (glo (fst t)) (snd t))). exact E.
  Qed.
End Traj.

(* ---------------------------------------------------------------- *)
(** ** The trajectories of drops *)

Lemma fly_loop_points : forall fuel s d dt c n tr v vd f pts, tr <> [] -> fly_loop fuel s d dt c n tr v = Ok (vd, f, pts) -> pts <> [].
Proof.
  induction fuel as [|fuel IH]; intros s d dt c n tr v vd f pts Hn E; [discriminate|]. cbn [fly_loop] in E.
  destruct (last_point tr) as [lp|]; [|discriminate]. cbn [rbind] in E.
  destruct (Z.of_nat (List.length tr) >? n)%Z; [injection E as _ _ <-; exact Hn|].
  destruct (negb (inside s lp)); [injection E as _ _ <-; exact Hn|].
  destruct (find_nearest s lp) as [nr|]; [|discriminate]. cbn [rbind] in E.
  destruct (fly_step lp v (snd nr) d dt) as [x|]; [|discriminate]. cbn [rbind] in E.
  destruct (is_near_v (fst x) lp eps15); [injection E as _ _ <-; exact Hn|].
  assert (Hn' : tr ++ [fst x] <> []) by (destruct tr; discriminate).
  destruct (first_intersection (Seg lp (fst x)) c) as [[t|]|]; [| |discriminate]; cbn [rbind] in E.
  - injection E as _ _ <-. exact Hn'.
  - eapply IH; [exact Hn'|exact E].
Qed.

Lemma flight_points : forall air c d dt n f i vd h tr, flight air c d dt n f i = Ok (vd, h, tr) -> tr <> [].
Proof.
  intros air c d dt n f i vd h tr E. unfold flight in E. destruct (normal_orth (get_triangle f i)) as [o|]; [|discriminate]. cbn [rbind] in E.
  eapply fly_loop_points; [|exact E]. discriminate.
Qed.

Lemma drops_points : forall fs ds d dt thr n gs trs, Forall DropsSpec.dict_ok fs -> drops fs ds d dt thr n = Ok (gs, trs) ->
  Forall (fun t => snd t <> []) trs.
Proof.
  intros fs ds d dt thr n gs trs Hd E. destruct (DropsMore.drops_ok _ _ _ _ _ _ _ _ Hd E) as (c & air & _ & _ & _ & _ & K & _).
  apply Forall_forall. intros [i tr] I. destruct (K i tr I) as (f & vd & h & _ & Ef). apply (flight_points _ _ _ _ _ _ _ _ _ _ Ef).
Qed.

Theorem drops_trajectories_form : forall {F : FloatOps} fm rd, (forall x, word (fm x)) -> (forall x, prs (fm x) = Some (rd x)) ->
  forall fs ds d dt thr n gs trs glo, Forall DropsSpec.dict_ok fs -> drops fs ds d dt thr n = Ok (gs, trs) ->
  file_form [] (file_lines (List.concat (trajectories_file fm glo trs)))
    (ETitle (lit "Trajectories") :: map (fun t => EZone (drawn rd (glo (fst t)) (snd t))) trs).
Proof. intros F fm rd Hw Hp fs ds d dt thr n gs trs glo Hd E. apply trajectories_form; auto. eapply drops_points; eauto. Qed.
