(** Proofs about computations continued from a merged file. *)

From Coq Require Import ZArith NArith Ascii String Bool Lia List Permutation.
From Verif Require Import Py PyLemmas Utils UtilsSpec UtilsProofs Heap HeapLemmas GridModel GridSpec DecompSpec Mpi GridIO FileSpec StoreSpec LoadPlace LoadMain LoadProps Driver DriverSpec
  MergeProofs StrategyProofs DriverProofs SamplesStore CycleSpec CycleProofs SolverSpec SolverProofs SolverMain Stamps StampsSpec StampsProofs RestartSpec.
Import ListNotations.
Open Scope list_scope.
Open Scope nat_scope.

Lemma map_nodup_in : forall A B (f : A -> B) l, (forall a b, In a l -> In b l -> f a = f b -> a = b) -> NoDup l -> NoDup (map f l).
Proof.
  intros A B f. induction l as [|a l IH]; intros H N; [constructor|]. inversion N as [|x y N1 N2]; subst. cbn [map]. constructor.
  - intros K. apply in_map_iff in K as (b & K1 & K2). apply N1. rewrite (H a b); [exact K2|left; auto|right; auto|auto].
  - apply IH; [|exact N2]. intros x y Hx Hy. apply H; right; auto.
Qed.

Lemma last_first : forall A (l : list A) x y, last (x :: l) y = last l x.
Proof. intros A. induction l as [|a l IH]; intros x y; [reflexivity|]. exact (eq_trans (IH a y) (eq_sym (IH a x))). Qed.

Section RestartProofs.
  Context {F : FloatOps}.

  Lemma rows_faces : forall vars zs rows, file_faces (with_rows vars rows zs) = file_faces zs.
  Proof.
    intros vars. induction zs as [|z zs IH]; intros rows; [reflexivity|]. unfold file_faces in *. cbn [with_rows flat_map]. rewrite IH. reflexivity.
  Qed.

  Lemma rows_table : forall vars zs rows, map (fun z => (zr_name z, length (zr_conn z))) (with_rows vars rows zs) = map (fun z => (zr_name z, length (zr_conn z))) zs.
  Proof. intros vars. induction zs as [|z zs IH]; intros rows; [reflexivity|]. cbn [with_rows map zr_name zr_conn]. rewrite IH. reflexivity. Qed.

  Lemma holds_table : forall zs h, holds_zones zs h -> zone_table h = map (fun z => (zr_name z, length (zr_conn z))) zs.
  Proof.
    intros zs h (L & _ & H). unfold zone_table. apply map_nth_ext; [exact L|]. intros i z zr Hz Hzr. destruct (H i z zr Hz Hzr) as (A & B & _). congruence.
  Qed.

  (** A grid with all positions among those of a file, and the rounded corners of another. *)
  Lemma same_triangles : forall (ps : list pt) h2 hl, NoDup (map rnd ps) ->
    (forall f n, In f (g_faces h2) -> In n (f_nodes h2 f) -> n_rc h2 n = rnd (n_p h2 n) /\ In (n_p h2 n) ps) ->
    (forall f n, In f (g_faces hl) -> In n (f_nodes hl f) -> n_rc hl n = rnd (n_p hl n) /\ In (n_p hl n) ps) ->
    map (fun f => map (n_rc h2) (f_nodes h2 f)) (g_faces h2) = map (fun f => map (n_rc hl) (f_nodes hl f)) (g_faces hl) ->
    triangles h2 = triangles hl.
  Proof.
    intros ps h2 hl Np H2 H1 E. unfold triangles. revert H1 E. generalize (g_faces hl) as b. induction (g_faces h2) as [|f a IH]; intros [|g b] H1 E; try discriminate E; [reflexivity|].
    cbn [map] in *. injection E as E E'. f_equal.
    - pose proof (fun n => H2 f n (or_introl eq_refl)) as K2. pose proof (fun n => H1 g n (or_introl eq_refl)) as K1. clear - E K1 K2 Np. revert K1 E.
      generalize (f_nodes hl g) as q. induction (f_nodes h2 f) as [|n p IH]; intros [|m q] K1 E; try discriminate E; [reflexivity|].
      cbn [map] in *. injection E as E E'. f_equal.
      + destruct (K2 n (or_introl eq_refl)) as [A B]. destruct (K1 m (or_introl eq_refl)) as [C D].
        apply (NoDup_map_inj _ _ rnd ps); auto. congruence.
      + apply IH; auto; intros x Hx; [apply K2; right; auto|apply K1; right; auto].
    - apply IH; auto; intros x n Hx; [apply H2; right; auto|apply H1; right; auto].
  Qed.

  (** What a merged text is, against the text it was merged from. *)
  Lemma merged_text : forall text evs h hl out, file_form [] (file_lines text) evs -> no_degenerate (zones_of evs) -> load true text h = (Ok tt, hl) ->
    (forall h1, exists h2 vars rows, load true out h1 = (Ok tt, h2) /\ merged_grid (titled evs) (zones_of evs) vars rows h2) ->
    exists evs', file_form [] (file_lines out) evs' /\ no_degenerate (zones_of evs') /\ faces_in (zones_of evs') = faces_in (zones_of evs) /\
      titled evs' = titled evs /\
      forall h1, exists h2, load true out h1 = (Ok tt, h2) /\ triangles h2 = triangles hl /\ zone_table h2 = zone_table hl /\ g_name h2 = titled evs.
  Proof.
    intros text evs h hl out Hf Nd El Hm.
    destruct (loaded_good _ _ _ _ El Hf Nd) as ([Tl _] & _). destruct (load_result _ _ _ _ _ El Hf) as [Ldl _].
    destruct (Hm empty_heap) as (hx & vars & rows & Ex & Mx).
    destruct (load_form_main _ _ _ _ Ex) as (evs' & F' & _). exists evs'. split; [exact F'|].
    destruct (load_result _ _ _ _ _ Ex F') as [Ldx Nx]. destruct Mx as (Mn & Mh & [Mt Mz] & Mp).
    split; [|split; [|split]].
    - intros t Ht. rewrite <- (holds_faces _ _ (ld_zones _ _ _ Ldx)) in Ht. apply in_map_iff in Ht as (f & <- & Hfx).
      destruct (t_face_nodes _ Mt f Hfx) as (_ & N & I). apply map_nodup_in; [|exact N].
      intros a b Ha Hb. apply (NoDup_map_inj _ _ (n_rc hx) (g_nodes hx)); [apply (ld_merge _ _ _ Ldx); reflexivity| |]; apply I; assumption.
    - rewrite <- (faces_count _ _ (ld_zones _ _ _ Ldx)), (faces_count _ _ Mh). unfold faces_in. pose proof (f_equal (map snd) (rows_table vars (zones_of evs) rows)) as K. rewrite !map_map in K. cbn [snd] in K. rewrite K. reflexivity.
    - rewrite <- Mn, Nx. unfold title_after, titled. destruct (title_in evs'); reflexivity.
    - intros h1. destruct (Hm h1) as (h2 & v2 & r2 & E2 & M2). exists h2. split; [exact E2|]. destruct M2 as (Mn2 & Mh2 & [Mt2 _] & Mp2).
      destruct (load_result _ _ _ _ _ E2 F') as [Ld2 _]. split; [|split; [|exact Mn2]].
      + apply (same_triangles (firsts (all_pts (zones_of evs)))); [apply firsts_nodup| | |].
        * intros f n Hfx Hn. assert (In n (g_nodes h2)) by (apply (t_face_nodes _ Mt2 f Hfx); exact Hn). split; [apply (ld_rc _ _ _ Ld2); auto|apply Mp2; auto].
        * intros f n Hfx Hn. assert (In n (g_nodes hl)) by (apply (t_face_nodes _ Tl f Hfx); exact Hn). split; [apply (ld_rc _ _ _ Ldl); auto|].
          rewrite <- (ld_pts _ _ _ Ldl). apply in_map. auto.
        * rewrite (holds_faces _ _ Mh2), (holds_faces _ _ (ld_zones _ _ _ Ldl)), rows_faces. reflexivity.
      + rewrite (holds_table _ _ Mh2), (holds_table _ _ (ld_zones _ _ _ Ldl)), rows_table. reflexivity.
  Qed.

  Lemma stem_pair : forall nm tm, twelve_digits tm -> get_filename_and_timestamp_pair (merged_stem nm tm) = (nm ++ lit "_r", tm).
  Proof.
    intros nm tm H. rewrite <- (ts_pair_append (nm ++ lit "_r") tm H). unfold merged_stem. rewrite <- app_assoc. reflexivity.
  Qed.

  (** The text merged in one cycle. *)
  Lemma one_cycle : forall stem nm ts text strat fixed rf h hs files evs d stamps vars tabs h0 h1 outs tm out, faithful_numbers -> order_ok ->
    get_filename_and_timestamp_pair stem = (nm, ts) ->
    file_form [] (file_lines text) evs -> no_degenerate (zones_of evs) -> faces_in (zones_of evs) <> 0 ->
    split_run stem (Some text) (lit ".dat") strat fixed rf h = (Ok files, hs) ->
    (Z.of_nat (length files) <= 100000)%Z -> (forall t, In t stamps -> twelve_digits t) ->
    solver_dir nm files stamps vars tabs d -> merge_run stem (Some text) d h0 = (Ok outs, h1) ->
    In tm stamps -> In (merged_name nm tm, out) outs ->
    forall h2, exists h3 vs rows, load true out h2 = (Ok tt, h3) /\ merged_grid (titled evs) (zones_of evs) vs rows h3.
  Proof.
    intros stem nm ts text strat fixed rf h hs files evs d stamps vars tabs h0 h1 outs tm out Hn Ho En Hf Nd Nf Es Ln Ht Hd Em Hs Hin h2.
    destruct (directories_grid stem nm ts text strat fixed rf h hs files evs d stamps vars tabs h0 Hn Ho En Hf Nd Nf Es Ln Ht Hd) as (outs' & h' & E1 & _ & _ & E4).
    rewrite Em in E1. injection E1 as E1 _. rewrite <- E1 in E4. destruct (E4 tm out Hs Hin h2) as (h3 & K1 & (rows & _ & K2) & _). exists h3, (vars tm), rows. split; [exact K1|exact K2].
  Qed.

  Theorem restart : forall stem text tms stem' text', continued stem text tms stem' text' ->
    forall nm ts evs h hl, faithful_numbers -> order_ok -> get_filename_and_timestamp_pair stem = (nm, ts) ->
    file_form [] (file_lines text) evs -> no_degenerate (zones_of evs) -> faces_in (zones_of evs) <> 0 -> load true text (new_grid h) = (Ok tt, hl) ->
    get_filename_and_timestamp_pair stem' = (base_after (length tms) nm, last tms ts) /\
    exists evs', file_form [] (file_lines text') evs' /\ no_degenerate (zones_of evs') /\ faces_in (zones_of evs') = faces_in (zones_of evs) /\
      forall h1, exists h2, load true text' (new_grid h1) = (Ok tt, h2) /\ triangles h2 = triangles hl /\ zone_table h2 = zone_table hl /\ g_name h2 = g_name hl.
  Proof.
    induction 1 as [stem text|stem text nm ts strat fixed rf h hs files stamps vars tabs d h0 h1 outs tm out tms stem' text' En Es Ln Ht Hd Em Hs Hin Hc IH];
      intros nm0 ts0 evs h' hl Hn Ho En0 Hf Nd Nf El.
    - split; [exact En0|]. exists evs. split; [exact Hf|]. split; [exact Nd|]. split; [reflexivity|]. intros h1. 
      destruct (load_result _ _ _ _ _ El Hf) as [Ldl Nl].
      assert (T3 : ~ three_share (zones_of evs)) by (intros K; pose proof (load_rejects_main text (new_grid h') evs Hf K) as Z; rewrite El in Z; discriminate Z).
      destruct (load_accepts_main true text (new_grid h1) evs Hf Nd T3 (or_introl eq_refl)) as (h2 & E2). exists h2. split; [exact E2|].
      destruct (loaded_good _ _ _ _ El Hf Nd) as ([Tl _] & _). destruct (loaded_good _ _ _ _ E2 Hf Nd) as ([T2 _] & _). destruct (load_result _ _ _ _ _ E2 Hf) as [Ld2 N2].
      split; [|split].
      + apply (same_triangles (firsts (all_pts (zones_of evs)))); [apply firsts_nodup| | |].
        * intros f n Hfx Hnn. assert (In n (g_nodes h2)) by (apply (t_face_nodes _ T2 f Hfx); exact Hnn). split; [apply (ld_rc _ _ _ Ld2); auto|].
          rewrite <- (ld_pts _ _ _ Ld2). apply in_map. auto.
        * intros f n Hfx Hnn. assert (In n (g_nodes hl)) by (apply (t_face_nodes _ Tl f Hfx); exact Hnn). split; [apply (ld_rc _ _ _ Ldl); auto|].
          rewrite <- (ld_pts _ _ _ Ldl). apply in_map. auto.
        * rewrite (holds_faces _ _ (ld_zones _ _ _ Ld2)), (holds_faces _ _ (ld_zones _ _ _ Ldl)). reflexivity.
      + rewrite (holds_table _ _ (ld_zones _ _ _ Ld2)), (holds_table _ _ (ld_zones _ _ _ Ldl)). reflexivity.
      + rewrite N2, Nl. reflexivity.
    - rewrite En in En0. injection En0 as E1 E2. subst nm0 ts0.
      destruct (merged_text text evs (new_grid h') hl out Hf Nd El) as (evs1 & F1 & D1 & C1 & T1 & L1).
      { exact (one_cycle stem nm ts text strat fixed rf h hs files evs d stamps vars tabs h0 h1 outs tm out Hn Ho En Hf Nd Nf Es Ln Ht Hd Em Hs Hin). }
      destruct (L1 (new_grid empty_heap)) as (hm & Em1 & Em2 & Em3 & Em4).
      assert (Nl : g_name hl = titled evs).
      { destruct (load_result _ _ _ _ _ El Hf) as [_ Nl]. rewrite Nl. unfold title_after, titled. destruct (title_in evs); reflexivity. }
      destruct (IH (nm ++ lit "_r") tm evs1 empty_heap hm Hn Ho (stem_pair nm tm (Ht tm Hs)) F1 D1) as (P1 & evs2 & P2 & P3 & P4 & P5); [rewrite C1; exact Nf|exact Em1|].
      split.
      + rewrite P1. cbn [length base_after]. f_equal. symmetry. apply last_first.
      + exists evs2. split; [exact P2|]. split; [exact P3|]. split; [congruence|]. intros h2. destruct (P5 h2) as (h3 & Q1 & Q2 & Q3 & Q4). exists h3. split; [exact Q1|]. repeat split; congruence.
  Qed.

  Lemma continued_trans : forall stem text tms stem' text', continued stem text tms stem' text' ->
    forall tms' stem2 text2, continued stem' text' tms' stem2 text2 -> continued stem text (tms ++ tms') stem2 text2.
  Proof.
    induction 1 as [stem text|stem text nm ts strat fixed rf h hs files stamps vars tabs d h0 h1 outs tm out tms stem' text' En Es Ln Ht Hd Em Hs Hin Hc IH];
      intros tms' stem2 text2 H2; [exact H2|].
    cbn [app]. exact (continued_more stem text nm ts strat fixed rf h hs files stamps vars tabs d h0 h1 outs tm out (tms ++ tms') stem2 text2 En Es Ln Ht Hd Em Hs Hin (IH _ _ _ H2)).
  Qed.

  Theorem restart_next : forall stem text tms stem' text', continued stem text tms stem' text' ->
    forall nm ts evs h hl, faithful_numbers -> order_ok -> get_filename_and_timestamp_pair stem = (nm, ts) ->
    file_form [] (file_lines text) evs -> no_degenerate (zones_of evs) -> faces_in (zones_of evs) <> 0 -> load true text (new_grid h) = (Ok tt, hl) ->
    forall strat fixed rf h2 hs files stamps vars tabs d h0,
    split_run stem' (Some text') (lit ".dat") strat fixed rf h2 = (Ok files, hs) ->
    (Z.of_nat (length files) <= 100000)%Z -> (forall t, In t stamps -> twelve_digits t) ->
    solver_dir (base_after (length tms) nm) files stamps vars tabs d ->
    exists outs h', merge_run stem' (Some text') d h0 = (Ok outs, h') /\
      forall tm, In tm stamps -> exists out, In (merged_name (base_after (length tms) nm) tm, out) outs /\
        continued stem text (tms ++ [tm]) (merged_stem (base_after (length tms) nm) tm) out.
  Proof.
    intros stem text tms stem' text' Hc nm ts evs h hl Hn Ho En Hf Nd Nf El strat fixed rf h2 hs files stamps vars tabs d h0 Es Ln Ht Hd.
    destruct (restart _ _ _ _ _ Hc nm ts evs h hl Hn Ho En Hf Nd Nf El) as (En' & evs' & F' & D' & C' & _).
    destruct (directories_grid stem' _ _ text' strat fixed rf h2 hs files evs' d stamps vars tabs h0 Hn Ho En' F' D') as (outs & h' & E1 & _ & E3 & _); try assumption.
    { rewrite C'. exact Nf. }
    exists outs, h'. split; [exact E1|]. intros tm Htm. pose proof (proj2 (E3 _) (ex_intro _ tm (conj Htm eq_refl))) as K. apply in_map_iff in K as ([n out] & K1 & K2). cbn [fst] in K1. subst n.
    exists out. split; [exact K2|]. apply (continued_trans _ _ _ _ _ Hc).
    exact (continued_more stem' text' _ _ strat fixed rf h2 hs files stamps vars tabs d h0 h' outs tm out [] _ out En' Es Ln Ht Hd E1 Htm K2 (continued_here _ _)).
  Qed.
End RestartProofs.
