(** Transformations of edges between two zones; storing of transformed grids. *)

From Coq Require Import ZArith NArith Ascii String Bool Lia List Permutation.
From Verif Require Import Py PyLemmas Heap HeapLemmas GridModel GridSpec DecompSpec GridIO FileSpec StoreSpec LoadProps StoreProofs RoundTrip
  PlainProofs Atomic AtomicSpec AtomicActs PatchProofs PatchDel PatchDone AtomicRun AtomicProofs AtomicTwo AtomicCut AtomicInner AtomicFlip AtomicMain AtomicSeq
  AtomicFinal DecompProofs Samples SamplesStore SamplesIO SamplesAtomic.
Import ListNotations.
Open Scope list_scope.
Open Scope nat_scope.

Section Across.
  Context {F : FloatOps}.

  Ltac by_counts T Pa := let K := fresh in
    pose proof (patched_counts _ _ _ _ T Pa) as K; cbn [gone_faces gone_edges made_nodes made_edges made_faces length] in K;
    destruct K as (? & ? & ?); [| |unfold counts; repeat split; lia].

  Theorem cut_across : forall h edge f1 f2 p n1 n2, sound h -> no_double_faces h -> In edge (g_edges h) ->
    e_faces h edge = [f1; f2] -> e_nodes h edge = [n1; n2] -> new_point h p ->
    exists z h' n3 n4 n e1 e2 e3 e4 g1 g2 g3 g4 P,
      In n3 (f_nodes h f1) /\ n3 <> n1 /\ n3 <> n2 /\ In n4 (f_nodes h f2) /\ n4 <> n1 /\ n4 <> n2 /\ n3 <> n4 /\
      P = mkPatch [f1; f2] [edge] [(n, p)]
        [(e1, (n1, n)); (e2, (n2, n)); (e3, (n3, n)); (e4, (n4, n))]
        [(g1, (n, n2, n3), f1); (g2, (n, n1, n3), f1); (g3, (n, n1, n4), f2); (g4, (n, n2, n4), f2)] /\
      f_zone h f1 = Some z /\ cut_edge edge p h = (Ok true, h') /\ sound h' /\ no_double_faces h' /\ counts h h' 1 3 2 /\
      patched_to (fun _ => Some z) h h' P /\ members_to z h h' P.
  Proof.
    intros h edge f1 f2 p n1 n2 Co Nd He Ef En Hp. pose proof Co as (T & _).
    destruct (t_edge_faces h T edge He) as (_ & Nf & If). rewrite Ef in Nf, If.
    assert (H1 : In f1 (g_faces h)) by (apply If; cbn; auto). assert (H2 : In f2 (g_faces h)) by (apply If; cbn; auto).
    destruct (act_any h (ACut edge p) Co Nd (conj He Hp)) as (h2 & E2 & _ & N2 & _).
    destruct (cut_edge_any h edge f1 f2 p n1 n2 Co He Ef En Hp (pair_corners h f1 f2 Nd H1 H2)) as
      (z & h' & n3 & n4 & n & e1 & e2 & e3 & e4 & g1 & g2 & g3 & g4 & K1 & K2 & K3 & K4 & K5 & K6 & K7 & E & Ez & R).
    cbn [perform] in E2. rewrite (bind_run _ _ _ _ _ _ _ E) in E2. apply (f_equal snd) in E2. cbn in E2. subst h2.
    destruct R as (So & _ & Pa & Me).
    exists z, h', n3, n4, n, e1, e2, e3, e4, g1, g2, g3, g4. eexists. repeat (split; [assumption|]). split; [reflexivity|].
    repeat (split; [assumption|]). split; [|auto].
    by_counts T Pa; auto; repeat constructor; intros [].
  Qed.

  Theorem inner_two_across : forall h edge f1 f2 p1 p2 n1 n2, sound h -> no_double_faces h -> In edge (g_edges h) ->
    e_faces h edge = [f1; f2] -> e_nodes h edge = [n1; n2] -> new_point h p1 -> new_point h p2 -> rnd p1 <> rnd p2 ->
    exists z h' n3 n6 n4 n5 e1 e2 e3 e4 e5 e6 e7 g1 g2 g3 g4 g5 g6 P,
      In n3 (f_nodes h f1) /\ n3 <> n1 /\ n3 <> n2 /\ In n6 (f_nodes h f2) /\ n6 <> n1 /\ n6 <> n2 /\ n3 <> n6 /\
      P = mkPatch [f1; f2] [edge] [(n4, p1); (n5, p2)]
        [(e1, (n1, n4)); (e2, (n2, n5)); (e3, (n4, n5)); (e4, (n3, n4)); (e5, (n3, n5)); (e6, (n4, n6)); (e7, (n5, n6))]
        [(g1, (n1, n3, n4), f1); (g2, (n3, n4, n5), f1); (g3, (n2, n3, n5), f1);
         (g4, (n1, n4, n6), f2); (g5, (n4, n5, n6), f2); (g6, (n2, n5, n6), f2)] /\
      f_zone h f1 = Some z /\ cut_edge_with_two_nodes edge p1 p2 h = (Ok true, h') /\ sound h' /\ no_double_faces h' /\
      counts h h' 2 6 4 /\ patched_to (fun _ => Some z) h h' P /\ members_to z h h' P.
  Proof.
    intros h edge f1 f2 p1 p2 n1 n2 Co Nd He Ef En Hp1 Hp2 Hne. pose proof Co as (T & _).
    destruct (t_edge_faces h T edge He) as (_ & Nf & If). rewrite Ef in Nf, If.
    assert (H1 : In f1 (g_faces h)) by (apply If; cbn; auto). assert (H2 : In f2 (g_faces h)) by (apply If; cbn; auto).
    destruct (act_any h (ATwo edge p1 p2) Co Nd (conj He (conj Hp1 (conj Hp2 Hne)))) as (h2 & E2 & _ & N2 & _).
    destruct (cut_inner_two_any h edge f1 f2 p1 p2 n1 n2 Co He Ef En Hp1 Hp2 Hne (pair_corners h f1 f2 Nd H1 H2)) as
      (z & h' & n3 & n6 & n4 & n5 & e1 & e2 & e3 & e4 & e5 & e6 & e7 & g1 & g2 & g3 & g4 & g5 & g6 &
       K1 & K2 & K3 & K4 & K5 & K6 & K7 & E & Ez & R).
    cbn [perform] in E2. rewrite (bind_run _ _ _ _ _ _ _ E) in E2. apply (f_equal snd) in E2. cbn in E2. subst h2.
    destruct R as (So & _ & Pa & Me).
    exists z, h', n3, n6, n4, n5, e1, e2, e3, e4, e5, e6, e7, g1, g2, g3, g4, g5, g6. eexists.
    repeat (split; [assumption|]). split; [reflexivity|]. repeat (split; [assumption|]). split; [|auto].
    by_counts T Pa; auto; repeat constructor; intros [].
  Qed.

  Theorem flip_across : order_ok -> forall h face, sound h -> no_double_faces h -> In face (g_faces h) ->
    exists edge, longest h face edge /\
      (length (e_faces h edge) <> 2 -> collapse_face face h = (Ok false, h)) /\
      (forall other, other <> face -> In other (e_faces h edge) -> free_diagonal h edge ->
       exists z h' n1 n2 n3 n4 e g1 g2 P, e_nodes h edge = [n1; n2] /\
         Permutation (f_nodes h face) [n1; n2; n3] /\ Permutation (f_nodes h other) [n1; n2; n4] /\
         P = mkPatch [face; other] [edge] [] [(e, (n3, n4))] [(g1, (n1, n3, n4), face); (g2, (n2, n3, n4), face)] /\
         f_zone h face = Some z /\ collapse_face face h = (Ok true, h') /\ sound h' /\ counts h h' 0 0 0 /\
         patched_to (fun _ => Some z) h h' P /\ members_to z h h' P).
  Proof.
    intros O h face Co Nd Hf. pose proof Co as (T & ZO & _). destruct (max_edge_longest O h face T Hf) as (edge & Mx & Lg).
    exists edge. split; auto. split; [intros L; apply (collapse_face_no h face edge Mx L)|].
    intros other Do Ho Fd. destruct Lg as [Ie _].
    assert (He : In edge (g_edges h)) by (apply (t_face_edges h T face Hf); auto).
    destruct (ends_of h edge T He) as (n1 & n2 & En & D12).
    assert (Fe : In face (e_faces h edge)) by (apply (t_ef h T); auto).
    assert (Ef : Permutation (e_faces h edge) [face; other]).
    { destruct (faces_of h edge T He) as [(g & Ef)|(g & k & Ef & D)]; rewrite Ef in *.
      - destruct Fe as [<-|[]]. destruct Ho as [<-|[]]. congruence.
      - destruct Fe as [<-|[<-|[]]]; destruct Ho as [<-|[<-|[]]]; try congruence; constructor; auto. }
    assert (Hg : In other (g_faces h)) by (apply (t_edge_faces h T edge He); auto).
    destruct (face_at h edge face n1 n2 T ZO He Fe En) as (n3 & a1 & a2 & z1 & B1).
    destruct (face_at h edge other n1 n2 T ZO He Ho En) as (n4 & b1 & b2 & z2 & B2).
    pose proof (bs_nd _ _ _ _ _ _ _ _ _ B1) as N1. apply NoDup3 in N1 as (_ & D13 & D23).
    pose proof (bs_nd _ _ _ _ _ _ _ _ _ B2) as N2. apply NoDup3 in N2 as (_ & D14 & D24).
    pose proof (bs_fn _ _ _ _ _ _ _ _ _ B1) as P1. pose proof (bs_fn _ _ _ _ _ _ _ _ _ B2) as P2.
    assert (I3 : In n3 (f_nodes h face)) by (apply (Permutation_in _ (Permutation_sym P1)); cbn; auto).
    assert (I4 : In n4 (f_nodes h other)) by (apply (Permutation_in _ (Permutation_sym P2)); cbn; auto).
    assert (D34 : n3 <> n4).
    { intros ->. apply Do. symmetry. apply Nd; auto. intros x Hx. apply (Permutation_in _ (Permutation_sym P2)).
      exact (Permutation_in _ P1 Hx). }
    destruct (collapse_face_any h face edge other n1 n2 n3 n4 Co Hf Mx Ef En I3) as (z & h' & d & g1 & g2 & E & Ez & R); auto.
    { intros d Hd. apply (Fd face other n3 n4 d); auto; rewrite En; cbn; intuition congruence. }
    destruct R as (So & _ & Pa & Me).
    exists z, h', n1, n2, n3, n4, d, g1, g2. eexists. repeat (split; [assumption|]). split; [reflexivity|].
    repeat (split; [assumption|]). split; [|auto].
    by_counts T Pa; repeat constructor; cbn; intuition congruence.
  Qed.

  (** Calls of all kinds but the contraction of an edge, across zones as well. *)
  Theorem sequence_across : forall text h h' evs l, load true text h = (Ok tt, h') ->
    file_form [] (file_lines text) evs -> no_degenerate (zones_of evs) -> no_double_faces h' -> all_allowed_any h' l ->
    exists h'', perform_all l h' = (Ok tt, h'') /\ sound h'' /\ no_double_faces h''.
  Proof.
    intros text h h' evs l E Ff Nd Dd Al. pose proof (loaded_consistent _ _ _ _ E Ff Nd) as Co.
    destruct (acts_any l h' (consistent_sound _ Co) Dd Al) as (h'' & E2 & So & N2 & _). exists h''. auto.
  Qed.

  (** A decomposition puts the lists of the zones right. *)
  Theorem repair_full : forall h a, sound h -> no_double_faces h -> decomposing a -> allowed h a ->
    exists h', perform a h = (Ok tt, h') /\ consistent h' /\ no_double_faces h' /\ carried [new_name a] h h'.
  Proof.
    intros h a So Nd D Al. assert (A : allowed_any h a /\ in_one_zone h a) by (destruct a; cbn in *; tauto).
    destruct A as [A1 A2]. destruct (act_any h a So Nd A1) as (h' & E & So' & N' & C & L).
    exists h'. split; [auto|]. split; [apply sound_consistent; auto|auto].
  Qed.

  Theorem repair_main : forall h a, sound h -> no_double_faces h -> decomposing a -> allowed h a ->
    exists h', perform a h = (Ok tt, h') /\ consistent h' /\ no_double_faces h'.
  Proof. intros h a So Nd D Al. destruct (repair_full h a So Nd D Al) as (h' & E & C & N & _). exists h'. auto. Qed.

  (** ** Storing *)

  Definition good_file (h : heap) (s : str) : Prop :=
    forall h1, exists h2, load true s h1 = (Ok tt, h2) /\ same_contents (grid_vars h) h h2.

  Lemma carried_writable : forall text h h' h'' evs nms, load true text h = (Ok tt, h') ->
    file_form [] (file_lines text) evs -> g_faces h' <> [] -> plain_name (g_name h') ->
    (forall s, In (Some s) nms -> plain_name s) -> carried nms h' h'' -> writable h''.
  Proof.
    intros text h h' h'' evs nms E Ff Ne Pn Hs [C1 C2 C3]. destruct (loaded_names _ _ _ _ _ E Ff) as (A & B & _).
    destruct (C3 Hs (conj Pn A)) as [P1 P2]. split; [auto|]. split; [auto|]. split; [auto|].
    unfold grid_vars. assert (Nn : g_faces h'' <> []) by auto. clear C1 C3 P1 P2.
    destruct (g_faces h'') as [|x xs]; [destruct Nn; reflexivity|].
    destruct (C2 x (or_introl eq_refl)) as (g & Hg & ->). apply B. auto.
  Qed.

  Lemma stored_good : forall h, faithful_numbers -> consistent h -> writable h -> exists s, store h = Ok s /\ good_file h s.
  Proof.
    intros h Hn (T & ZO & ZL & Nu & Me) W.
    destruct (store_ok h Hn (conj T ZO) ZL Nu W) as (s & _ & Es & _). exists s. split; [auto|]. intros h1.
    destruct (round_trip h h1 Hn (conj T ZO) ZL Nu Me W) as (s' & h2 & Es' & El & Sc & _).
    rewrite Es in Es'. apply (f_equal (fun r => match r with Ok x => x | Raise _ => s end)) in Es'. cbn in Es'. subst s'.
    exists h2. auto.
  Qed.

  Theorem stored_main : forall text h h' evs l, faithful_numbers -> load true text h = (Ok tt, h') ->
    file_form [] (file_lines text) evs -> no_degenerate (zones_of evs) -> no_double_faces h' ->
    g_faces h' <> [] -> plain_name (g_name h') -> (forall s, In (Some s) (map new_name l) -> plain_name s) ->
    all_allowed h' l ->
    exists h'' s, perform_all l h' = (Ok tt, h'') /\ store h'' = Ok s /\
      forall h1, exists h2, load true s h1 = (Ok tt, h2) /\ same_contents (grid_vars h'') h'' h2.
  Proof.
    intros text h h' evs l Hn E Ff Nd Dd Ne Pn Hs Al.
    destruct (acts_full l h' (loaded_consistent _ _ _ _ E Ff Nd) Dd Al) as (h'' & E2 & Co & N2 & Ca).
    destruct (stored_good h'' Hn Co) as (s & Es & G).
    { eapply carried_writable; eauto. }
    exists h'', s. auto.
  Qed.

  Theorem stored_repaired : forall text h h' evs l a, faithful_numbers -> load true text h = (Ok tt, h') ->
    file_form [] (file_lines text) evs -> no_degenerate (zones_of evs) -> no_double_faces h' ->
    g_faces h' <> [] -> plain_name (g_name h') -> (forall s, In (Some s) (map new_name (l ++ [a])) -> plain_name s) ->
    all_allowed_any h' l -> decomposing a -> (forall h'', perform_all l h' = (Ok tt, h'') -> allowed h'' a) ->
    exists h2 h3 s, perform_all l h' = (Ok tt, h2) /\ perform a h2 = (Ok tt, h3) /\ store h3 = Ok s /\
      forall h4, exists h5, load true s h4 = (Ok tt, h5) /\ same_contents (grid_vars h3) h3 h5.
  Proof.
    intros text h h' evs l a Hn E Ff Nd Dd Ne Pn Hs Al De Aa.
    destruct (acts_any l h' (consistent_sound _ (loaded_consistent _ _ _ _ E Ff Nd)) Dd Al) as (h2 & E2 & So & N2 & Ca).
    destruct (repair_full h2 a So N2 De (Aa h2 E2)) as (h3 & E3 & Co & N3 & Cb).
    destruct (stored_good h3 Hn Co) as (s & Es & G).
    { eapply carried_writable with (nms := map new_name (l ++ [a])); eauto. rewrite map_app. exact (carried_app _ _ _ _ _ Ca Cb). }
    exists h2, h3, s. auto.
  Qed.
End Across.

(** ** Counterexamples *)

Definition allowed_anyb {F : FloatOps} (h : heap) (a : action) : bool :=
  match a with
  | ACut e p => inb e (g_edges h) && new_pointb h p
  | ATwo e p q => inb e (g_edges h) && new_pointb h p && new_pointb h q && negb (rc_eqb (rnd p) (rnd q))
  | AFlip f => inb f (g_faces h) && forallb (fun e => free_diagonalb h e) (f_edges h f)
  | ACollapse _ => false
  | _ => allowedb h a
  end.

Fixpoint all_allowed_anyb {F : FloatOps} (h : heap) (l : list action) : bool :=
  match l with [] => true | a :: r => allowed_anyb h a && all_allowed_anyb (snd (perform a h)) r end.

Lemma allowed_anyb_ok : forall {F : FloatOps} h a, allowed_anyb h a = true -> allowed_any h a.
Proof.
  intros F h a H. destruct a; cbn [allowed_anyb allowed_any] in *; try (apply allowedb_ok; exact H).
  - apply andb_true_iff in H as [H H0]. split; [apply inb_ok|apply new_pointb_ok]; auto.
  - repeat (apply andb_true_iff in H as [H ?]). split; [apply inb_ok; auto|]. split; [apply new_pointb_ok; auto|].
    split; [apply new_pointb_ok; auto|]. intros E. apply rc_eqb_iff in E. rewrite E in *. discriminate.
  - apply andb_true_iff in H as [H H0]. split; [apply inb_ok; auto|]. intros e He. rewrite forallb_forall in H0.
    apply free_diagonalb_ok; auto.
  - discriminate H.
Qed.

Lemma all_allowed_anyb_ok : forall {F : FloatOps} l h, all_allowed_anyb h l = true -> all_allowed_any h l.
Proof.
  intros F. induction l as [|a l IH]; intros h H; cbn in *; auto. apply andb_true_iff in H as [H1 H2]. split; [apply allowed_anyb_ok; auto|].
  intros h' E. apply IH. rewrite E in H2. auto.
Qed.

Definition cut_acts : list (@action ZOps) := [ACut 0 (1, 1, 1)%Z].
Definition flip_acts : list (@action ZOps) := [ADecompLinear 3 None; AFlip 2; AFlip 0].

Definition text_of (h : @heap ZOps) : str := match store h with Ok s => s | Raise _ => [] end.

Lemma wheel_writable : writable wheel.
Proof. apply writableb_ok. vm_compute. reflexivity. Qed.

(** The file of the grid after [cut_acts] cannot be loaded. *)
Theorem stored_cut : exists (F : FloatOps) h l h' s, faithful_numbers /\ consistent h /\ no_double_faces h /\ writable h /\
  all_allowed_any h l /\ perform_all l h = (Ok tt, h') /\ sound h' /\ store h' = Ok s /\
  fst (load true s empty_heap) = Raise EException.
Proof.
  exists ZOps, wheel, cut_acts.
  assert (E : fst (perform_all cut_acts wheel) = Ok tt) by (vm_compute; reflexivity).
  assert (A : all_allowed_any wheel cut_acts) by (apply all_allowed_anyb_ok; vm_compute; reflexivity).
  destruct (acts_any cut_acts wheel (consistent_sound _ wheel_ok) wheel_single A) as (h' & Eh & So & _ & _).
  assert (Es : match store h' with Ok _ => true | Raise _ => false end = true).
  { replace h' with (snd (perform_all cut_acts wheel)) by (rewrite Eh; reflexivity). vm_compute. reflexivity. }
  exists h'. destruct (store h') as [s|x] eqn:St; [|discriminate Es]. exists s.
  split; [exact Z_faithful|]. split; [exact wheel_ok|]. split; [exact wheel_single|]. split; [exact wheel_writable|].
  split; [exact A|]. split; [exact Eh|]. split; [exact So|]. split; [reflexivity|].
  replace s with (text_of (snd (perform_all cut_acts wheel))) by (rewrite Eh; unfold text_of; cbn [snd]; rewrite St; reflexivity).
  vm_compute. reflexivity.
Qed.

(** The file of the grid after [flip_acts] is loaded without an error, but gives another grid. *)
Theorem stored_flip : exists (F : FloatOps) h l h' s h2, faithful_numbers /\ consistent h /\ no_double_faces h /\ writable h /\
  all_allowed_any h l /\ perform_all l h = (Ok tt, h') /\ sound h' /\ store h' = Ok s /\
  load true s empty_heap = (Ok tt, h2) /\ ~ same_contents (grid_vars h') h' h2.
Proof.
  exists ZOps, wheel, flip_acts.
  assert (A : all_allowed_any wheel flip_acts) by (apply all_allowed_anyb_ok; vm_compute; reflexivity).
  destruct (acts_any flip_acts wheel (consistent_sound _ wheel_ok) wheel_single A) as (h' & Eh & So & _ & _).
  assert (Eh' : h' = snd (perform_all flip_acts wheel)) by (rewrite Eh; reflexivity).
  assert (Es : match store h' with Ok _ => true | Raise _ => false end = true) by (rewrite Eh'; vm_compute; reflexivity).
  exists h'. destruct (store h') as [s|x] eqn:St; [|discriminate Es]. exists s.
  assert (Et : s = text_of (snd (perform_all flip_acts wheel))) by (unfold text_of; rewrite <- Eh', St; reflexivity).
  exists (snd (load true (text_of (snd (perform_all flip_acts wheel))) empty_heap)).
  split; [exact Z_faithful|]. split; [exact wheel_ok|]. split; [exact wheel_single|]. split; [exact wheel_writable|].
  split; [exact A|]. split; [exact Eh|]. split; [exact So|]. split; [reflexivity|]. rewrite Et, Eh'. clear. split.
  - apply ok_state. vm_compute. reflexivity.
  - intros (_ & _ & _ & _ & H). destruct (H 0 2 0) as (_ & _ & _ & K); [vm_compute; reflexivity|vm_compute; reflexivity|].
    destruct (K 0 8 0) as (Q & _); [vm_compute; reflexivity|vm_compute; reflexivity|].
    apply (f_equal (fun l => match l with [_; _; (x, _, _)] => Z.eqb x (-40) | _ => true end)) in Q. vm_compute in Q. discriminate Q.
Qed.
