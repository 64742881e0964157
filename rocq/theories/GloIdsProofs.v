(** The printed numbers before and after one transformation of a loaded grid. *)

From Coq Require Import ZArith NArith Ascii String Bool Lia List Permutation.
From Verif Require Import Py PyLemmas Heap HeapLemmas GridModel GridSpec DecompSpec GridIO FileSpec LoadProps LoadMain DriverSpec
  PlainProofs Atomic AtomicSpec AtomicActs PatchDone AtomicMain AtomicSeq AtomicFinal AcrossMain CollapseSpec CollapseCases MergeProofs BagProofs CollapseTopo DecompProofs GatherProofs GloIds GloIdsSpec.
Import ListNotations.
Open Scope list_scope.
Open Scope nat_scope.

Section GloIdsProofs.
  Context {F : FloatOps}.

  Lemma seq_map : forall (num : nat -> Z) l s, (forall i x, nth_error l i = Some x -> num x = Z.of_nat (s + i)) ->
    map num l = map Z.of_nat (seq s (length l)).
  Proof.
    intros num l. induction l as [|x l IH]; intros s H; [reflexivity|]. cbn [map length seq]. f_equal.
    - rewrite (H 0 x eq_refl), Nat.add_0_r. reflexivity.
    - apply IH. intros i y E. rewrite (H (S i) y E). f_equal. lia.
  Qed.

  Lemma ids_ordered : forall h, numbered_in_order h ->
    in_order (ids h) (length (g_faces h)) (length (g_edges h)) (length (g_nodes h)).
  Proof.
    intros h (A & B & C). unfold in_order, ids. rewrite (seq_map _ _ 0 A), (seq_map _ _ 0 B), (seq_map _ _ 0 C). reflexivity.
  Qed.

  Lemma ids_some : forall h, numbered h -> in_some_order (ids h) (length (g_faces h)) (length (g_edges h)) (length (g_nodes h)).
  Proof. intros h (A & B & C). split; [exact C|]. split; [exact B|exact A]. Qed.

  (** The search stops at the first face whose first edge has [k] faces. *)
  Lemma first_of_run : forall k act h fs f e pre post, fs = pre ++ f :: post -> begins_with h k f e ->
    (forall g, In g pre -> f_edges h g <> []) -> (forall g d, In g pre -> ~ begins_with h k g d) ->
    first_of k act fs h = act f e h.
  Proof.
    intros k act h fs f e pre post ->. induction pre as [|g pre IH]; intros (r & E & L) Ne No; cbn [app first_of].
    - rewrite bind_gets. cbv beta. rewrite E. unfold item0. rewrite bind_lift_ok. cbv beta. rewrite bind_gets. cbv beta. rewrite L, Nat.eqb_refl. reflexivity.
    - rewrite bind_gets. cbv beta. destruct (f_edges h g) as [|d ds] eqn:Eg; [exfalso; apply (Ne g (or_introl eq_refl)); exact Eg|].
      unfold item0. rewrite bind_lift_ok. cbv beta. rewrite bind_gets. cbv beta.
      destruct (Nat.eqb (length (e_faces h d)) k) eqn:Ek.
      + exfalso. apply (No g d (or_introl eq_refl)). exists ds. split; [exact Eg|]. apply Nat.eqb_eq. exact Ek.
      + apply IH; [exists r; auto|intros g' H; apply Ne; right; exact H|intros g' d' H; apply No; right; exact H].
  Qed.

  Lemma first_of_none : forall k act h fs, (forall g, In g fs -> f_edges h g <> []) ->
    (forall g d, In g fs -> ~ begins_with h k g d) -> first_of k act fs h = (Raise EIndexError, h).
  Proof.
    intros k act h fs. induction fs as [|g fs IH]; intros Ne No; [reflexivity|]. cbn [first_of].
    rewrite bind_gets. cbv beta. destruct (f_edges h g) as [|d ds] eqn:Eg; [exfalso; apply (Ne g (or_introl eq_refl)); exact Eg|].
    unfold item0. rewrite bind_lift_ok. cbv beta. rewrite bind_gets. cbv beta.
    destruct (Nat.eqb (length (e_faces h d)) k) eqn:Ek.
    - exfalso. apply (No g d (or_introl eq_refl)). exists ds. split; [exact Eg|]. apply Nat.eqb_eq. exact Ek.
    - apply IH; [intros g' H; apply Ne; right; exact H|intros g' d' H; apply No; right; exact H].
  Qed.

  Lemma edges_some : forall h g, topo_ok h -> In g (g_faces h) -> f_edges h g <> [].
  Proof. intros h g T Hg K. destruct (t_face_edges h T g Hg) as (L & _). rewrite K in L. discriminate L. Qed.

  Lemma search_run : forall k act h f e, topo_ok h -> first_with h k f e -> search k act h = act f e h.
  Proof.
    intros k act h f e T (pre & post & E & B & No). unfold search. rewrite bind_gets. cbv beta.
    apply (first_of_run k act h _ f e pre post E B); [|exact No].
    intros g Hg. apply edges_some; [exact T|]. rewrite E. apply in_or_app. left. exact Hg.
  Qed.

  Lemma search_none : forall k act h, topo_ok h -> (forall f e, In f (g_faces h) -> ~ begins_with h k f e) ->
    search k act h = (Raise EIndexError, h).
  Proof.
    intros k act h T No. unfold search. rewrite bind_gets. cbv beta.
    apply first_of_none; [|exact No]. intros g Hg. apply edges_some; [exact T|exact Hg].
  Qed.

  Lemma first_member : forall h k f e, topo_ok h -> first_with h k f e ->
    In f (g_faces h) /\ In e (f_edges h f) /\ In e (g_edges h) /\ length (e_faces h e) = k.
  Proof.
    intros h k f e T (pre & post & E & (r & Er & L) & _).
    assert (Hf : In f (g_faces h)) by (rewrite E; apply in_or_app; right; left; reflexivity).
    assert (He : In e (f_edges h f)) by (rewrite Er; left; reflexivity).
    split; [exact Hf|]. split; [exact He|]. split; [|exact L]. exact (proj2 (proj2 (t_face_edges h T f Hf)) e He).
  Qed.

  (** What is known about a loaded grid. *)
  Lemma loaded_start : forall text h hl evs, load true text (new_grid h) = (Ok tt, hl) ->
    file_form [] (file_lines text) evs -> no_degenerate (zones_of evs) ->
    consistent hl /\ numbered_in_order hl /\ NoDup (g_bag hl) /\ length (g_faces hl) = faces_in (zones_of evs) /\
    length (g_nodes hl) = length (firsts (all_pts (zones_of evs))).
  Proof.
    intros text h hl evs E Hf Nd. destruct (load_result _ _ _ _ _ E Hf) as [Ld _].
    split; [exact (loaded_consistent _ _ _ _ E Hf Nd)|]. split; [exact (ld_num _ _ _ Ld)|].
    split; [exact (load_bag _ _ _ _ _ E)|]. split; [exact (faces_count _ _ (ld_zones _ _ _ Ld))|].
    pose proof (ld_pts _ _ _ Ld) as K. apply (f_equal (@length pt)) in K. rewrite map_length in K. exact K.
  Qed.

  Lemma ids_case_run : forall act text h hl h', load true text (new_grid h) = (Ok tt, hl) -> act hl = (Ok tt, h') ->
    ids_case act text h = (Ok (ids hl, ids h'), h').
  Proof.
    intros act text h hl h' E R. unfold ids_case. rewrite bind_modify. cbv beta. rewrite (bind_run _ _ _ _ _ _ _ E). cbv beta.
    rewrite bind_gets. cbv beta. rewrite (bind_run _ _ _ _ _ _ _ R). cbv beta. rewrite bind_gets. reflexivity.
  Qed.

  Lemma ids_case_raise : forall act text h hl h' x, load true text (new_grid h) = (Ok tt, hl) -> act hl = (Raise x, h') ->
    ids_case act text h = (Raise x, h').
  Proof.
    intros act text h hl h' x E R. unfold ids_case. rewrite bind_modify. cbv beta. rewrite (bind_run _ _ _ _ _ _ _ E). cbv beta.
    rewrite bind_gets. cbv beta. unfold bind. rewrite R. reflexivity.
  Qed.

  Lemma after_counts : forall h h' n e f, numbered h' -> counts h h' n e f ->
    in_some_order (ids h') (length (g_faces h) + f) (length (g_edges h) + e) (length (g_nodes h) + n).
  Proof. intros h h' n e f N (A & B & C). rewrite <- A, <- B, <- C. apply ids_some. exact N. Qed.

  Lemma consistent_numbered : forall h, consistent h -> numbered h.
  Proof. intros h K. exact (proj1 (proj2 (proj2 (proj2 K)))). Qed.

  Lemma corners3 : forall h f, topo_ok h -> In f (g_faces h) -> exists a b c, f_nodes h f = [a; b; c].
  Proof.
    intros h f T Hf. destruct (t_face_nodes h T f Hf) as (L & _). destruct (f_nodes h f) as [|a [|b [|c [|d r]]]]; try discriminate L. eauto.
  Qed.

  Theorem divide_ids : forall cen text h hl evs f r, load true text (new_grid h) = (Ok tt, hl) ->
    file_form [] (file_lines text) evs -> no_degenerate (zones_of evs) ->
    g_faces hl = f :: r -> new_point hl (centroid cen hl f) ->
    let nf := faces_in (zones_of evs) in let nn := length (firsts (all_pts (zones_of evs))) in
    exists before after ne h', divide_case cen text h = (Ok (before, after), h') /\
      in_order before nf ne nn /\ in_some_order after (nf + 2) (ne + 3) (nn + 1).
  Proof.
    intros cen text h hl evs f r E Hf Nd Ef Hp nf nn. destruct (loaded_start _ _ _ _ E Hf Nd) as (Co & Nu & _ & Lf & Ln).
    assert (Hin : In f (g_faces hl)) by (rewrite Ef; left; reflexivity).
    destruct (corners3 hl f (proj1 Co) Hin) as (a & b & c & Ec).
    destruct (divide_main hl f _ a b c Co Hin Hp Ec) as (h' & n & e4 & e5 & e6 & f1 & f2 & f3 & R & Co' & Cn & _).
    exists (ids hl), (ids h'), (length (g_edges hl)), h'. split.
    - apply (ids_case_run _ _ _ _ _ E). unfold first_face. rewrite bind_assoc, bind_gets. cbv beta. rewrite Ef. unfold item0. rewrite bind_lift_ok. cbv beta.
      rewrite bind_gets. exact R.
    - unfold nf, nn. rewrite <- Lf, <- Ln. split; [apply ids_ordered; exact Nu|].
      exact (after_counts hl h' 1 3 2 (consistent_numbered _ Co') Cn).
  Qed.

  Theorem flip_ids : forall text h hl evs f r, order_ok -> load true text (new_grid h) = (Ok tt, hl) ->
    file_form [] (file_lines text) evs -> no_degenerate (zones_of evs) -> no_double_faces hl ->
    g_faces hl = f :: r -> (forall e, In e (f_edges hl f) -> free_diagonal hl e) ->
    let nf := faces_in (zones_of evs) in let nn := length (firsts (all_pts (zones_of evs))) in
    exists before after ne h', flip_case text h = (Ok (before, after), h') /\
      in_order before nf ne nn /\ in_some_order after nf ne nn.
  Proof.
    intros text h hl evs f r Oo E Hf Nd Dd Ef Fd nf nn. destruct (loaded_start _ _ _ _ E Hf Nd) as (Co & Nu & _ & Lf & Ln).
    assert (Hin : In f (g_faces hl)) by (rewrite Ef; left; reflexivity).
    assert (G : exists b h', collapse_face f hl = (Ok b, h') /\ numbered h' /\ counts hl h' 0 0 0).
    { destruct (flip_across Oo hl f (consistent_sound _ Co) Dd Hin) as (e & (He & _) & H0 & H2). pose proof (proj1 Co) as T.
      assert (Hg : In e (g_edges hl)) by exact (proj2 (proj2 (t_face_edges hl T f Hin)) e He).
      destruct (faces_of hl e T Hg) as [(g & Eg)|(g & g' & Eg & Ng)].
      - exists false, hl. split; [apply H0; rewrite Eg; discriminate|]. split; [exact (consistent_numbered _ Co)|]. unfold counts. lia.
      - assert (Ho : exists o, o <> f /\ In o (e_faces hl e)).
        { rewrite Eg. destruct (Nat.eq_dec g f) as [Q|Q]; [exists g'|exists g]; (split; [congruence|cbn; auto]). }
        destruct Ho as (o & No & Io). destruct (H2 o No Io (Fd e He)) as (z & h' & n1 & n2 & n3 & n4 & d & g1 & g2 & P & _ & _ & _ & _ & _ & R & So & Cn & _).
        exists true, h'. split; [exact R|]. split; [exact (proj1 (proj2 (proj2 (proj2 So))))|exact Cn]. }
    destruct G as (b & h' & R & N' & Cn). exists (ids hl), (ids h'), (length (g_edges hl)), h'. split.
    - apply (ids_case_run _ _ _ _ _ E). unfold first_face. rewrite bind_assoc, bind_gets. cbv beta. rewrite Ef. unfold item0. rewrite bind_lift_ok. cbv beta.
      rewrite (bind_run _ _ _ _ _ _ _ R). reflexivity.
    - unfold nf, nn. rewrite <- Lf, <- Ln. split; [apply ids_ordered; exact Nu|].
      pose proof (after_counts hl h' 0 0 0 N' Cn) as K. rewrite !Nat.add_0_r in K. exact K.
  Qed.

  Theorem cut_ids : forall cen text h hl evs f e, load true text (new_grid h) = (Ok tt, hl) ->
    file_form [] (file_lines text) evs -> no_degenerate (zones_of evs) -> no_double_faces hl ->
    first_with hl 2 f e -> new_point hl (centroid cen hl f) ->
    let nf := faces_in (zones_of evs) in let nn := length (firsts (all_pts (zones_of evs))) in
    exists before after ne h', cut_case cen text h = (Ok (before, after), h') /\
      in_order before nf ne nn /\ in_some_order after (nf + 2) (ne + 3) (nn + 1).
  Proof.
    intros cen text h hl evs f e E Hf Nd Dd Fw Hp nf nn. destruct (loaded_start _ _ _ _ E Hf Nd) as (Co & Nu & _ & Lf & Ln).
    pose proof (proj1 Co) as T. destruct (first_member _ _ _ _ T Fw) as (Hin & _ & He & L).
    destruct (ends_of hl e T He) as (n1 & n2 & En & _). destruct (e_faces hl e) as [|f1 [|f2 [|f3 fr]]] eqn:Ee; try discriminate L.
    destruct (cut_across hl e f1 f2 _ n1 n2 (consistent_sound _ Co) Dd He Ee En Hp)
      as (z & h' & n3 & n4 & n & e1 & e2 & e3 & e4 & g1 & g2 & g3 & g4 & P & _ & _ & _ & _ & _ & _ & _ & _ & _ & R & So & _ & Cn & _).
    exists (ids hl), (ids h'), (length (g_edges hl)), h'. split.
    - apply (ids_case_run _ _ _ _ _ E). rewrite (search_run _ _ _ _ _ T Fw). cbv beta. rewrite bind_gets. cbv beta. rewrite (bind_run _ _ _ _ _ _ _ R). reflexivity.
    - unfold nf, nn. rewrite <- Lf, <- Ln. split; [apply ids_ordered; exact Nu|].
      exact (after_counts hl h' 1 3 2 (proj1 (proj2 (proj2 (proj2 So)))) Cn).
  Qed.

  Theorem single_ids : forall cen text h hl evs f e, load true text (new_grid h) = (Ok tt, hl) ->
    file_form [] (file_lines text) evs -> no_degenerate (zones_of evs) ->
    first_with hl 1 f e -> new_point hl (centroid cen hl f) ->
    let nf := faces_in (zones_of evs) in let nn := length (firsts (all_pts (zones_of evs))) in
    exists before after ne h', single_case cen text h = (Ok (before, after), h') /\
      in_order before nf ne nn /\ in_some_order after (nf + 1) (ne + 2) (nn + 1).
  Proof.
    intros cen text h hl evs f e E Hf Nd Fw Hp nf nn. destruct (loaded_start _ _ _ _ E Hf Nd) as (Co & Nu & _ & Lf & Ln).
    pose proof (proj1 Co) as T. destruct (first_member _ _ _ _ T Fw) as (Hin & _ & He & L).
    destruct (ends_of hl e T He) as (n1 & n2 & En & _). destruct (e_faces hl e) as [|f1 [|f2 fr]] eqn:Ee; try discriminate L.
    destruct (single_main hl e f1 _ n1 n2 Co He Ee En Hp)
      as (h' & n3 & n & e1 & e2 & e3 & g1 & g2 & _ & _ & _ & R & Co' & Cn & _).
    exists (ids hl), (ids h'), (length (g_edges hl)), h'. split.
    - apply (ids_case_run _ _ _ _ _ E). rewrite (search_run _ _ _ _ _ T Fw). cbv beta. rewrite bind_gets. cbv beta. rewrite (bind_run _ _ _ _ _ _ _ R). reflexivity.
    - unfold nf, nn. rewrite <- Lf, <- Ln. split; [apply ids_ordered; exact Nu|].
      exact (after_counts hl h' 1 2 1 (consistent_numbered _ Co') Cn).
  Qed.

  (** No face begins with an edge of the needed kind. *)
  Theorem none_ids : forall cen lo hi text h hl evs, load true text (new_grid h) = (Ok tt, hl) ->
    file_form [] (file_lines text) evs -> no_degenerate (zones_of evs) ->
    ((forall f e, In f (g_faces hl) -> ~ begins_with hl 2 f e) ->
       cut_case cen text h = (Raise EIndexError, hl) /\ collapse_case text h = (Raise EIndexError, hl)) /\
    ((forall f e, In f (g_faces hl) -> ~ begins_with hl 1 f e) ->
       single_case cen text h = (Raise EIndexError, hl) /\ two_case cen lo hi text h = (Raise EIndexError, hl)).
  Proof.
    intros cen lo hi text h hl evs E Hf Nd. destruct (loaded_start _ _ _ _ E Hf Nd) as (Co & _). pose proof (proj1 Co) as T.
    split; intros No; split; try (apply (ids_case_raise _ _ _ _ _ _ E), search_none; [exact T|exact No]).
    unfold two_case. rewrite bind_modify. cbv beta. rewrite (bind_run _ _ _ _ _ _ _ E). cbv beta.
    rewrite bind_gets. cbv beta. unfold two_step at 1. unfold bind at 1. rewrite (search_none 1 _ hl T No). reflexivity.
  Qed.

  (** Two cuts by two nodes one after another. *)
  Theorem two_ids : forall cen lo hi text h hl evs f e h1 f2 e2, load true text (new_grid h) = (Ok tt, hl) ->
    file_form [] (file_lines text) evs -> no_degenerate (zones_of evs) -> no_double_faces hl ->
    first_with hl 1 f e -> (let p := centroid cen hl f in new_point hl (lo p) /\ new_point hl (hi p) /\ rnd (lo p) <> rnd (hi p)) ->
    two_step cen lo hi 1 hl = (Ok tt, h1) ->
    first_with h1 2 f2 e2 -> (let p := centroid cen h1 f2 in new_point h1 (lo p) /\ new_point h1 (hi p) /\ rnd (lo p) <> rnd (hi p)) ->
    let nf := faces_in (zones_of evs) in let nn := length (firsts (all_pts (zones_of evs))) in
    exists before after later ne h', two_case cen lo hi text h = (Ok (before, after, later), h') /\
      in_order before nf ne nn /\ in_some_order after (nf + 2) (ne + 4) (nn + 2) /\ in_some_order later (nf + 6) (ne + 10) (nn + 4).
  Proof.
    intros cen lo hi text h hl evs f e h1 f2 e2 E Hf Nd Dd Fw (P1 & P2 & P3) S1 Fw2 (Q1 & Q2 & Q3) nf nn.
    destruct (loaded_start _ _ _ _ E Hf Nd) as (Co & Nu & _ & Lf & Ln).
    pose proof (proj1 Co) as T. destruct (first_member _ _ _ _ T Fw) as (Hin & _ & He & L).
    destruct (ends_of hl e T He) as (n1 & n2 & En & _). destruct (e_faces hl e) as [|fa [|fb fr]] eqn:Ee; try discriminate L.
    assert (Al : allowed_any hl (ATwo e (lo (centroid cen hl f)) (hi (centroid cen hl f)))) by (cbn [allowed_any]; auto).
    destruct (border_two_main hl e fa _ _ n1 n2 Co He Ee En P1 P2 P3)
      as (h1' & n3 & n4 & n5 & d1 & d2 & d3 & d4 & d5 & g1 & g2 & g3 & _ & _ & _ & R & Co1 & Cn & _).
    destruct (act_any hl _ (consistent_sound _ Co) Dd Al) as (h1'' & R' & _ & Dd1 & _). cbn [perform] in R'.
    rewrite (bind_run _ _ _ _ _ _ _ R) in R'. apply (f_equal snd) in R'. cbn [snd ret] in R'. subst h1''.
    assert (S1' : two_step cen lo hi 1 hl = (Ok tt, h1')).
    { unfold two_step. rewrite (search_run _ _ _ _ _ T Fw). cbv beta. rewrite bind_gets. cbv beta. rewrite (bind_run _ _ _ _ _ _ _ R). reflexivity. }
    rewrite S1 in S1'. apply (f_equal snd) in S1'. cbn [snd] in S1'. subst h1'.
    pose proof (proj1 Co1) as T1. destruct (first_member _ _ _ _ T1 Fw2) as (Hin2 & _ & He2 & L2).
    destruct (ends_of h1 e2 T1 He2) as (m1 & m2 & Em & _). destruct (e_faces h1 e2) as [|fc [|fd [|fx fr]]] eqn:Ee2; try discriminate L2.
    destruct (inner_two_across h1 e2 fc fd _ _ m1 m2 (consistent_sound _ Co1) Dd1 He2 Ee2 Em Q1 Q2 Q3)
      as (z & h' & k3 & k6 & k4 & k5 & c1 & c2 & c3 & c4 & c5 & c6 & c7 & i1 & i2 & i3 & i4 & i5 & i6 & P & _ & _ & _ & _ & _ & _ & _ & _ & _ & R2 & So & _ & Cn2 & _).
    exists (ids hl), (ids h1), (ids h'), (length (g_edges hl)), h'. split; [|].
    - unfold two_case. rewrite bind_modify. cbv beta. rewrite (bind_run _ _ _ _ _ _ _ E). cbv beta. rewrite bind_gets. cbv beta.
      rewrite (bind_run _ _ _ _ _ _ _ S1). cbv beta. rewrite bind_gets. cbv beta.
      assert (S2 : two_step cen lo hi 2 h1 = (Ok tt, h')).
      { unfold two_step. rewrite (search_run _ _ _ _ _ T1 Fw2). cbv beta. rewrite bind_gets. cbv beta. rewrite (bind_run _ _ _ _ _ _ _ R2). reflexivity. }
      rewrite (bind_run _ _ _ _ _ _ _ S2). cbv beta. rewrite bind_gets. reflexivity.
    - unfold nf, nn. rewrite <- Lf, <- Ln. split; [apply ids_ordered; exact Nu|]. split.
      + exact (after_counts hl h1 2 4 2 (consistent_numbered _ Co1) Cn).
      + apply (after_counts hl h' 4 10 6 (proj1 (proj2 (proj2 (proj2 So))))). destruct Cn as (A1 & A2 & A3), Cn2 as (B1 & B2 & B3). unfold counts. lia.
  Qed.

  (** Numbers in order: the greatest ones are at the end without [d] exactly if [d] is not there. *)
  Lemma sub_app : forall (p : nat -> Prop) a b l', sublist_of p (a ++ b) l' -> exists a' b', l' = a' ++ b' /\ sublist_of p a a' /\ sublist_of p b b'.
  Proof.
    intros p a. induction a as [|x a IH]; intros b l' H; cbn [app] in H.
    - exists [], l'. split; [reflexivity|]. split; [constructor|exact H].
    - inversion H as [|y k k' Hp Hk E1 E2|y k k' Hp Hk E1 E2].
      + destruct (IH b k' Hk) as (a' & b' & -> & A & B). exists (x :: a'), b'. split; [reflexivity|]. split; [constructor; assumption|exact B].
      + destruct (IH b l' Hk) as (a' & b' & -> & A & B). exists a', b'. split; [reflexivity|]. split; [apply sub_drop; assumption|exact B].
  Qed.

  Lemma sub_all : forall (p : nat -> Prop) b b', sublist_of p b b' -> (forall x, In x b -> p x) -> b' = b.
  Proof.
    intros p b b' H. induction H as [|x l l' Hp H IH|x l l' Hp H IH]; intros K; [reflexivity| |].
    - f_equal. apply IH. intros y Hy. apply K. right. exact Hy.
    - exfalso. apply Hp. apply K. left. reflexivity.
  Qed.

  Lemma greatest_iff : forall (num : nat -> Z) d l l' k, NoDup l ->
    (forall i x, nth_error l i = Some x -> num x = Z.of_nat i) -> others d l l' ->
    (greatest_last num l' k (length l) <-> not_at_end d l k).
  Proof.
    intros num d l l' k Nd Hn Ho. split.
    - intros (a & b & El & Lb & Pb).
      assert (In_l : forall x, In x l' -> In x l /\ ~ In x d) by (intros x Hx; exact (proj1 (DecompProofs.sublist_In _ _ _ _ _ Ho) Hx)).
      assert (Nd' : NoDup l') by exact (DecompProofs.sublist_NoDup _ _ _ _ Ho Nd).
      assert (Lk : k <= length l).
      { rewrite <- Lb. transitivity (length l'); [rewrite El, app_length; lia|]. apply NoDup_incl_length; [exact Nd'|]. intros x Hx. apply In_l. exact Hx. }
      exists (firstn (length l - k) l), (skipn (length l - k) l). split; [symmetry; apply firstn_skipn|].
      split; [rewrite skipn_length; lia|]. intros x Hd Hx.
      assert (Nb : NoDup b) by (rewrite El in Nd'; exact (CollapseTopo.NoDup_app_right _ _ Nd')).
      assert (Ib : incl b (skipn (length l - k) l)).
      { intros y Hy. assert (Hyl : In y l) by (apply In_l; rewrite El; apply in_or_app; right; exact Hy).
        apply In_nth_error in Hyl as (i & Ei). pose proof (Hn i y Ei) as Ny.
        assert (In (num y) (map Z.of_nat (seq (length l - k) k))) as Km by (apply (Permutation_in _ Pb), in_map; exact Hy).
        apply in_map_iff in Km as (j & Ej & Hj). apply in_seq in Hj. assert (i = j) by lia. subst j.
        apply (nth_error_In _ (i - (length l - k))). rewrite GatherProofs.nth_error_skipn'. replace (length l - k + (i - (length l - k))) with i by lia. exact Ei. }
      assert (In x b).
      { apply (@NoDup_length_incl nat b (skipn (length l - k) l) Nb ltac:(rewrite skipn_length; lia) Ib x Hx). }
      apply (proj2 (In_l x ltac:(rewrite El; apply in_or_app; right; assumption))). exact Hd.
    - intros (a & b & El & Lb & No). rewrite El in Ho. destruct (sub_app _ _ _ _ Ho) as (a' & b' & El' & _ & Hb).
      assert (b' = b) by (apply (sub_all _ _ _ Hb); intros x Hx K; exact (No x K Hx)). subst b'.
      exists a', b. split; [exact El'|]. split; [exact Lb|].
      assert (length l - k = length a) as -> by (rewrite El, app_length; lia).
      assert (map num b = map Z.of_nat (seq (length a) (length b))) as ->; [|rewrite Lb; apply Permutation_refl].
      apply seq_map. intros i x Ei. apply Hn. rewrite El, nth_error_app2 by lia. replace (length a + i - length a) with i by lia. exact Ei.
  Qed.

  (** The contraction of an edge. *)
  Theorem collapse_ids : forall text h hl evs f e f1 f2 n1 n2 n3 n4, load true text (new_grid h) = (Ok tt, hl) ->
    file_form [] (file_lines text) evs -> no_degenerate (zones_of evs) -> no_double_faces hl ->
    first_with hl 2 f e -> e_faces hl e = [f1; f2] -> e_nodes hl e = [n1; n2] ->
    In n3 (f_nodes hl f1) -> n3 <> n1 -> n3 <> n2 -> In n4 (f_nodes hl f2) -> n4 <> n1 -> n4 <> n2 ->
    contractible hl f1 f2 n1 n2 n3 n4 ->
    let nf := faces_in (zones_of evs) in let nn := length (firsts (all_pts (zones_of evs))) in
    exists before after ne h' e1 e2, In e1 (g_edges hl) /\ Permutation (e_nodes hl e1) [n2; n3] /\
      In e2 (g_edges hl) /\ Permutation (e_nodes hl e2) [n2; n4] /\
      collapse_case text h = (Ok (before, after), h') /\ in_order before nf ne nn /\
      (in_some_order after (nf - 2) (ne - 3) (nn - 1) <->
       not_at_end [f1; f2] (g_faces hl) 2 /\ not_at_end [e; e1; e2] (g_edges hl) 3 /\ not_at_end [n2] (g_nodes hl) 1).
  Proof.
    intros text h hl evs f e f1 f2 n1 n2 n3 n4 E Hf Nd Dd Fw Ef En I3 D31 D32 I4 D41 D42 Con nf nn.
    destruct (loaded_start _ _ _ _ E Hf Nd) as (Co & Nu & Bg & Lf & Ln). pose proof (proj1 Co) as T.
    destruct (first_member _ _ _ _ T Fw) as (_ & _ & He & _).
    destruct (collapse_shape hl e f1 f2 n1 n2 n3 n4 Co Dd Bg He Ef En I3 D31 D32 I4 D41 D42 Con)
      as (h' & e1 & e2 & H1 & H2 & H3 & H4 & R & Ct & T' & Z' & L' & M' & _ & (A1 & A2 & A3)).
    pose proof (collapse_numbers_iff hl e f1 f2 n1 n2 n3 n4 h' Co Dd Bg He Ef En I3 D31 D32 I4 D41 D42 Con R) as Iff.
    exists (ids hl), (ids h'), (length (g_edges hl)), h', e1, e2.
    split; [exact H1|]. split; [exact H2|]. split; [exact H3|]. split; [exact H4|]. split.
    - apply (ids_case_run _ _ _ _ _ E). rewrite (search_run _ _ _ _ _ T Fw). cbv beta. rewrite (bind_run _ _ _ _ _ _ _ R). reflexivity.
    - unfold nf, nn. rewrite <- Lf, <- Ln. split; [apply ids_ordered; exact Nu|].
      destruct Nu as (N1 & N2 & N3).
      rewrite <- (greatest_iff (f_glo hl) _ _ _ 2 (t_faces_nd hl T) N3 (ct_faces _ _ _ _ _ _ _ _ _ Ct)).
      rewrite <- (greatest_iff (e_glo hl) _ _ _ 3 (t_edges_nd hl T) N2 (ct_edges _ _ _ _ _ _ _ _ _ Ct)).
      rewrite <- (greatest_iff (n_glo hl) _ _ _ 1 (t_nodes_nd hl T) N1 (ct_nodes _ _ _ _ _ _ _ _ _ Ct)).
      assert (length (g_faces hl) - 2 = length (g_faces h')) as -> by lia.
      assert (length (g_edges hl) - 3 = length (g_edges h')) as -> by lia.
      assert (length (g_nodes hl) - 1 = length (g_nodes h')) as -> by lia.
      split.
      + intros (B1 & B2 & B3). assert (consistent h') as C' by (split; [exact T'|]; split; [exact Z'|]; split; [exact L'|]; split; [split; [exact B3|]; split; [exact B2|exact B1]|exact M']).
        apply Iff in C'. tauto.
      + intros (B1 & B2 & B3). assert (consistent h') as C' by (apply Iff; auto). apply ids_some. exact (consistent_numbered _ C').
  Qed.
End GloIdsProofs.
