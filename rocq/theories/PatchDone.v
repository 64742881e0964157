(** From the account of changes of a transformation to the properties of the new grid. *)

From Coq Require Import ZArith NArith Ascii String Bool Lia List Permutation.
From Verif Require Import Py PyLemmas Heap HeapLemmas GridModel GridSpec DecompProofs AtomicSpec PatchProofs PatchRun PatchDel PatchTmpl.
Import ListNotations.
Open Scope list_scope.
Open Scope nat_scope.

Section Done.
  Context {F : FloatOps}.
  Variable t : tmpl.
  Variable h : heap.
  Variables N0 E0 F0 : list nat.
  Hypothesis Co : sound h.
  Hypothesis C : check t = true.
  Hypothesis Fi : fits t h N0 E0 F0.

  Let nn := nn t h N0.
  Let ee := ee t h E0.
  Let ff := ff t h F0.

  (** The account [a] is that of the patch, all in zone [z], new nodes at [pts], new faces
      from the gone faces [src]. *)
  Record matches (a : acc) (z : nat) (pts : list pt) (src : list nat) : Prop := {
    ma_D : aD a = F0;
    ma_DE : aDE a = pDE t E0;
    ma_RM : forall f, ~ In f F0 -> sel (aRM a) f = [];
    ma_NE : aNE a = pNE t h N0 E0;
    ma_EF : aEF a = pEF t h E0 F0;
    ma_NF : aNF a = pNF t h N0 F0;
    ma_pts : aPts a = pts /\ length pts = nN t;
    ma_FD : aFD a = map (fun i => f_data h (ff i)) src /\ length src = nF t /\ forall i, In i src -> i < kF t;
    ma_En : aEn a = nE t;
    ma_AF : map fst (aAF a) = pA t h F0;
    ma_AFn : map snd (aAF a) = map (f_glo h) F0 ++ map Z.of_nat (seq (length (g_faces h)) (nF t - kF t));
    ma_AE : map fst (aAE a) = pAE t h;
    ma_AEn : map snd (aAE a) = map (e_glo h) (pDE t E0) ++ map Z.of_nat (seq (length (g_edges h)) (nE t - kG t));
    ma_ZF : exists A', Permutation (pA t h F0) A' /\ aZF a = map (fun f => (z, f)) A';
    ma_ZE : aZE a = map (fun e => (z, e)) (pAE t h);
    ma_ZN : aZN a = map (fun n => (z, n)) (pAN t h);
    ma_z : In z (g_zones h);
    ma_new : NoDup (map rnd pts) /\ forall p, In p pts -> ~ In (rnd p) (g_bag h)
  }.

  Lemma sel_const : forall z y l, sel (map (fun f => (z, f)) l) y = if z =? y then l else [].
  Proof.
    intros z y l. unfold sel. induction l as [|x l IH]; cbn; [destruct (z =? y); auto|].
    destruct (z =? y) eqn:E; cbn; [f_equal|]; exact IH.
  Qed.

  Lemma map_nth_glo : forall (g : nat -> Z) (l : list (nat * Z)), (forall x y, In (x, y) l -> g x = y) -> map g (map fst l) = map snd l.
  Proof.
    intros g l H. rewrite map_map. apply map_ext_in. intros [x y] Hx. cbn. apply H. auto.
  Qed.

  Variables (a : acc) (z : nat) (pts : list pt) (src : list nat) (h' : heap).
  Hypothesis I : Inv h a h'.
  Hypothesis Ma : matches a z pts src.

  Let T : topo_ok h.
  Proof. apply Co. Qed.

  Lemma DE_incl : NoDup (pDE t E0) /\ incl (pDE t E0) (g_edges h).
  Proof.
    split.
    - pose proof (fi_nd _ _ _ _ _ Fi) as (_ & N & _). rewrite <- (firstn_skipn (kG t) E0) in N.
      unfold pDE. revert N. generalize (firstn (kG t) E0) (skipn (kG t) E0). clear. intros l m N.
      induction l as [|x l IH]; [constructor|]. inversion N; subst. constructor; auto. intros K. apply H1. apply in_app_iff. auto.
    - intros e He. apply (fi_in _ _ _ _ _ Fi). rewrite <- (firstn_skipn (kG t) E0). apply in_app_iff. auto.
  Qed.

  Lemma done_applied : applied h h' F0 (pDE t E0) (pAN t h) (pAE t h) (pA t h F0) (pNE t h N0 E0) (pEF t h E0 F0) (pNF t h N0 F0).
  Proof.
    destruct Ma. destruct ma_pts0 as [P1 P2]. destruct ma_FD0 as (D1 & D2 & D3). subst pts.
    assert (Lf : length (aFD a) = nF t) by (rewrite D1, map_length; auto).
    constructor.
    - rewrite (i_g_nodes _ _ _ I), P2. reflexivity.
    - rewrite (i_g_edges _ _ _ I), ma_DE0, ma_AE0. auto.
    - rewrite (i_g_faces _ _ _ I), ma_D0, ma_AF0. auto.
    - intros n Hn. rewrite (i_n_edges _ _ _ I), ma_DE0, ma_NE0 by auto. auto.
    - intros n Hn. rewrite (i_n_faces _ _ _ I), ma_D0, ma_NF0 by auto. auto.
    - intros n Hn. rewrite <- ma_NE0, <- ma_NF0. apply (i_n_new _ _ _ I). unfold pAN in Hn. apply in_seq in Hn.
      rewrite (i_next_n _ _ _ I). lia.
    - intros e He. apply (i_e_nodes _ _ _ I). apply (t_edge_alloc h T); auto.
    - intros e He Hd. rewrite (i_e_faces _ _ _ I), ma_D0, ma_EF0 by (auto; rewrite ma_DE0; auto). auto.
    - intros e He. rewrite <- ma_NE0, <- ma_EF0. apply (i_e_new _ _ _ I). unfold pAE in He. apply in_seq in He.
      rewrite (i_next_e _ _ _ I). lia.
    - intros f Hf. apply (i_f_old _ _ _ I). apply (t_face_alloc h T); auto.
    - intros f Hf Hd. destruct (i_f_old _ _ _ I f) as (_ & _ & _ & _ & K); [apply (t_face_alloc h T); auto|].
      rewrite K, ma_RM0, keep_nil by auto. auto.
    - intros f Hf. rewrite <- ma_NF0, <- ma_EF0. apply (i_f_new _ _ _ I).
      apply (A_In t h F0 C) in Hf as (j & Hj & ->); eauto.
      rewrite (ff_new _ _ _ _ _ Fi) by auto. rewrite (i_next_f _ _ _ I). lia.
    - rewrite (i_next_n _ _ _ I), (i_next_e _ _ _ I), (i_next_f _ _ _ I). lia.
    - intros n Hn. unfold pAN in Hn. apply in_seq in Hn. rewrite (i_next_n _ _ _ I). lia.
    - intros n Hn. unfold pAE in Hn. apply in_seq in Hn. rewrite (i_next_e _ _ _ I). lia.
    - intros f Hf. apply (A_In t h F0 C) in Hf as (j & Hj & ->); eauto.
      rewrite (ff_new _ _ _ _ _ Fi) by auto. rewrite (i_next_f _ _ _ I). lia.
    - split; [apply seq_NoDup|]. split; [apply seq_NoDup|]. unfold pA.
      destruct (checks t C) as (_ & _ & _ & _ & _ & _ & _ & _ & _ & _ & _ & _ & _ & _ & _ & _ & _ & N & R).
      assert (K : forall x, In x (tA t) -> x < kF t + nF t) by (intros x Hx; apply R in Hx; lia).
      clear R. revert K. induction N as [|x l Hx N IH]; intros K; cbn; constructor.
      + intros Q. apply in_map_iff in Q as (y & E & Q). apply (ff_inj _ _ _ _ _ T Fi) in E; [subst; contradiction| |].
        * apply K. right; auto.
        * apply K. left; auto.
      + apply IH. intros y Hy. apply K. right; auto.
  Qed.

  Lemma done_zone : zone_applied h h' z F0 (pDE t E0) (pAN t h) (pAE t h) (pA t h F0).
  Proof.
    pose proof done_applied as Ap. destruct Ma. destruct ma_ZF0 as (A' & Pe & ZF).
    destruct (fixed_fields _ _ (i_fixed _ _ _ I)) as (_ & _ & _ & Nz & _ & Gz & _).
    constructor; auto.
    - apply (fi_in _ _ _ _ _ Fi).
    - intros f Hf. apply (i_f_old _ _ _ I). apply (t_face_alloc h T); auto.
    - intros f Hf. apply (i_f_zone _ _ _ I). rewrite ZF. apply in_map_iff. exists f. split; auto.
      eapply Permutation_in; eauto.
    - exists A'. split; auto. rewrite (i_z_faces _ _ _ I), ma_D0, ZF, sel_const, Nat.eqb_refl by auto. auto.
    - intros y Hy N. rewrite (i_z_faces _ _ _ I), ma_D0, ZF, sel_const by auto.
      destruct (Nat.eqb_spec z y) as [->|_]; [contradiction|]. apply app_nil_r.
    - rewrite (i_z_nodes _ _ _ I), ma_ZN0, sel_const, Nat.eqb_refl by auto. auto.
    - intros y Hy N. rewrite (i_z_nodes _ _ _ I), ma_ZN0, sel_const by auto.
      destruct (Nat.eqb_spec z y) as [->|_]; [contradiction|]. apply app_nil_r.
    - rewrite (i_z_edges _ _ _ I), ma_DE0, ma_ZE0, sel_const, Nat.eqb_refl by auto. auto.
    - intros y Hy N. rewrite (i_z_edges _ _ _ I), ma_DE0, ma_ZE0, sel_const by auto.
      destruct (Nat.eqb_spec z y) as [->|_]; [contradiction|]. apply app_nil_r.
  Qed.

  Hypothesis Uniq : forall e1 e2, In e1 (pAE t h) -> In e2 (g_edges h) -> ~ In e2 (pDE t E0) ->
      incl (e_nodes h' e1) (e_nodes h e2) -> False.

  Lemma done_pts : forall i p, nth_error pts i = Some p -> n_p h' (next_n h + i) = p /\ n_rc h' (next_n h + i) = rnd p /\
    n_glo h' (next_n h + i) = Z.of_nat (length (g_nodes h) + i).
  Proof. intros i p H. apply (i_n_pt _ _ _ I). destruct Ma. destruct ma_pts0 as [-> _]. auto. Qed.

  Lemma map_seq_pts : forall B (g : nat -> B) (f : pt -> B),
    (forall i p, nth_error pts i = Some p -> g (next_n h + i) = f p) ->
    map g (seq (next_n h) (length pts)) = map f pts.
  Proof.
    intros B g f. generalize (next_n h). generalize pts. intros l. induction l as [|p l IH]; intros k H; auto. cbn. f_equal.
    - specialize (H 0 p eq_refl). rewrite Nat.add_0_r in H. auto.
    - apply IH. intros i q K. specialize (H (S i) q K). rewrite Nat.add_succ_r in H. auto.
  Qed.

  Lemma map_seq_glo : forall (g : nat -> Z) k n m, (forall i, i < m -> g (k + i) = Z.of_nat (n + i)) ->
    map g (seq k m) = map Z.of_nat (seq n m).
  Proof.
    intros g k n m. revert k n. induction m as [|m IH]; intros k n H; auto. cbn. f_equal.
    - specialize (H 0 ltac:(lia)). rewrite !Nat.add_0_r in H. auto.
    - apply IH. intros i Hi. specialize (H (S i) ltac:(lia)). rewrite !Nat.add_succ_r in H. auto.
  Qed.

  Lemma done_lists : zone_lists_ok h -> (forall f, In f F0 -> f_zone h f = Some z) -> zone_lists_ok h'.
  Proof.
    intros Zl Same. pose proof done_applied as Ap. pose proof done_zone as Za.
    pose proof (tmpl_good t h N0 E0 F0 T C Fi h' Ap Uniq) as Gp. destruct Co as (_ & Zo & _).
    eapply patch_zone_lists; eauto.
    - exact (cover_nodes t h N0 E0 F0 T C Fi).
    - exact (cover_new t h N0 E0 F0 C Fi).
    - exact (cover_edges t h N0 E0 F0 T C Fi).
  Qed.

  Theorem done_sound : sound h'.
  Proof.
    pose proof done_applied as Ap. pose proof done_zone as Za.
    pose proof (tmpl_good t h N0 E0 F0 T C Fi h' Ap Uniq) as Gp.
    destruct Co as (_ & Zo & Zl & Nu & Me).
    split; [eapply patch_topo; eauto|].
    split; [eapply patch_zones; eauto|].
    split; [eapply patch_listed; eauto|].
    pose proof Ma as Ma'. destruct Ma'. destruct ma_pts0 as [P1 P2]. destruct ma_FD0 as (D1 & D2 & D3).
    destruct (fi_nd _ _ _ _ _ Fi) as (_ & _ & Nf). destruct (fi_in _ _ _ _ _ Fi) as (_ & _ & If).
    destruct DE_incl as [Nd Id]. destruct (fi_len _ _ _ _ _ Fi) as (_ & Le & Lf).
    destruct Nu as (U1 & U2 & U3).
    assert (LA : length (pA t h F0) = nF t).
    { destruct (checks t C) as (_ & _ & _ & _ & _ & _ & _ & _ & _ & _ & _ & _ & _ & _ & _ & _ & _ & N & R).
      unfold pA. rewrite map_length. rewrite <- (seq_length (nF t) (kF t)). apply Permutation_length.
      apply NoDup_Permutation; auto; [apply seq_NoDup|]. intros x. rewrite R, in_seq. tauto. }
    split; [split; [|split]|].
    - (* nodes *)
      rewrite (ap_nodes _ _ _ _ _ _ _ _ _ _ Ap), map_app, app_length, seq_app, map_app.
      apply Permutation_app.
      + erewrite map_ext_in; [exact U1|]. intros n Hn. apply (i_n_old _ _ _ I). apply (t_node_alloc h T). auto.
      + unfold pAN. rewrite seq_length. cbn [plus].
        rewrite (map_seq_glo (n_glo h') (next_n h) (length (g_nodes h))); [apply Permutation_refl|].
        intros i Hi. destruct (nth_error pts i) as [p|] eqn:E.
        * apply (done_pts i p E).
        * apply nth_error_None in E. lia.
    - (* edges *)
      rewrite (ap_edges _ _ _ _ _ _ _ _ _ _ Ap). apply (patch_numbers (e_glo h) (e_glo h') (g_edges h) (pDE t E0) (pAE t h) (nE t - kG t)); auto.
      + apply (t_edges_nd h T).
      + intros e He _. apply (i_e_nodes _ _ _ I). apply (t_edge_alloc h T). auto.
      + rewrite <- ma_AE0, (map_nth_glo (e_glo h')), ma_AEn0; [apply Permutation_refl|]. apply (i_e_glo _ _ _ I).
      + assert (K : length (map snd (aAE a)) = length (map fst (aAE a))) by (rewrite !map_length; auto).
        rewrite ma_AEn0, ma_AE0, app_length, !map_length, seq_length in K. auto.
    - (* faces *)
      rewrite (ap_faces _ _ _ _ _ _ _ _ _ _ Ap). apply (patch_numbers (f_glo h) (f_glo h') (g_faces h) F0 (pA t h F0) (nF t - kF t)); auto.
      + apply (t_faces_nd h T).
      + intros e He _. apply (i_f_old _ _ _ I). apply (t_face_alloc h T). auto.
      + rewrite <- ma_AF0, (map_nth_glo (f_glo h')), ma_AFn0; [apply Permutation_refl|]. apply (i_f_glo _ _ _ I).
      + assert (K : length (map snd (aAF a)) = length (map fst (aAF a))) by (rewrite !map_length; auto).
        rewrite ma_AFn0, ma_AF0, app_length, !map_length, seq_length in K. auto.
    - (* rounded coordinates *)
      destruct Me as (M1 & M2 & M3). destruct ma_new0 as [W1 W2].
      assert (Eo : map (n_rc h') (g_nodes h) = map (n_rc h) (g_nodes h)).
      { apply map_ext_in. intros n Hn. apply (i_n_old _ _ _ I). apply (t_node_alloc h T). auto. }
      assert (En : map (n_rc h') (pAN t h) = map rnd pts).
      { unfold pAN. rewrite <- P2. apply map_seq_pts. intros i p Hp. apply (done_pts i p Hp). }
      split; [|split].
      + rewrite (ap_nodes _ _ _ _ _ _ _ _ _ _ Ap), map_app, Eo, En.
        clear - M1 M2 W1 W2. revert M1 M2. generalize (map (n_rc h) (g_nodes h)). intros l M1 M2.
        assert (K : forall r, In r l -> ~ In r (map rnd pts)).
        { intros r Hr Q. apply in_map_iff in Q as (p & <- & Q). apply (W2 p Q). apply M2. auto. }
        clear M2. induction M1 as [|r l Hr M1 IH]; auto. cbn. constructor.
        * rewrite in_app_iff. intros [Q|Q]; [auto|]. apply (K r); auto. left; auto.
        * apply IH. intros s Hs. apply K. right; auto.
      + intros r. rewrite (i_bag _ _ _ I), P1, (ap_nodes _ _ _ _ _ _ _ _ _ _ Ap), map_app, in_app_iff, Eo, En, M2. tauto.
      + intros n Hn. rewrite (ap_nodes _ _ _ _ _ _ _ _ _ _ Ap) in Hn. apply in_app_iff in Hn as [Hn|Hn].
        * destruct (i_n_old _ _ _ I n) as (K1 & _ & K2 & _); [apply (t_node_alloc h T); auto|]. rewrite K1, K2. auto.
        * unfold pAN in Hn. apply in_seq in Hn. destruct (nth_error pts (n - next_n h)) as [p|] eqn:E.
          -- destruct (done_pts _ p E) as (K1 & K2 & _).
             replace (next_n h + (n - next_n h)) with n in K1, K2 by lia. rewrite K1, K2. auto.
          -- apply nth_error_None in E. lia.
  Qed.

  (** The description of the patch. *)
  Definition two_of (l : list nat) : nat * nat := match l with [x; y] => (x, y) | _ => (0, 0) end.
  Definition three_of (l : list nat) : nat * nat * nat := match l with [x; y; w] => (x, y, w) | _ => (0, 0, 0) end.

  Definition the_patch : patch :=
    mkPatch F0 (pDE t E0) (combine (pAN t h) pts)
      (map (fun j => (ee j, two_of (map nn (sel (turn (tNE t)) j)))) (seq (kE t) (nE t)))
      (map (fun ij => (ff (fst ij), three_of (map nn (sel (turn (tNF t)) (fst ij))), ff (snd ij)))
           (combine (seq (kF t) (nF t)) src)).

  Lemma combine_fst : forall A B (l : list A) (m : list B), length l = length m -> map fst (combine l m) = l.
  Proof.
    induction l as [|x l IH]; intros [|y m] H; cbn in *; auto; try discriminate. f_equal. apply IH. lia.
  Qed.

  Lemma In_combine_seq : forall B (l : list B) k n x, In (x, n) (combine (seq k (length l)) l) ->
    exists i, x = k + i /\ nth_error l i = Some n.
  Proof.
    induction l as [|y l IH]; intros k n x H; cbn in H; [destruct H|]. destruct H as [H|H].
    - injection H as <- <-. exists 0. rewrite Nat.add_0_r. auto.
    - apply IH in H as (i & -> & H). exists (S i). split; [lia|auto].
  Qed.

  Lemma the_edges : map fst (made_edges the_patch) = pAE t h.
  Proof.
    unfold the_patch. cbn [made_edges]. rewrite map_map. cbn [fst]. unfold pAE, ee.
    assert (K : forall n k, k + n <= nE t -> map (PatchTmpl.ee t h E0) (seq (kE t + k) n) = seq (next_e h + k) n).
    { induction n as [|n IH]; intros k Hk; auto. cbn. f_equal.
      - rewrite (ee_new _ _ _ _ _ Fi) by lia. lia.
      - rewrite <- !Nat.add_succ_r. apply IH. lia. }
    specialize (K (nE t) 0). rewrite !Nat.add_0_r in K. apply K. auto.
  Qed.

  Lemma the_nodes : map fst (made_nodes the_patch) = pAN t h.
  Proof.
    destruct Ma. destruct ma_pts0 as [P1 P2]. unfold the_patch. cbn [made_nodes].
    apply combine_fst. unfold pAN. rewrite seq_length. auto.
  Qed.

  Lemma the_faces : Permutation (pA t h F0) (made_face_ids the_patch).
  Proof.
    destruct Ma. destruct ma_FD0 as (D1 & D2 & D3).
    destruct (checks t C) as (c1 & c2 & c3 & c4 & c5 & c6 & c7 & c8 & c9 & c10 & c11 & c12 & c13 & c14 & c15 & c16 & c17 & c18 & c19).
    assert (Ff : map (fun x => fst (fst x)) (made_faces the_patch) = map ff (seq (kF t) (nF t))).
    { unfold the_patch. cbn. rewrite map_map. cbn. rewrite <- (combine_fst _ _ (seq (kF t) (nF t)) src) at 2; [|rewrite seq_length; auto].
      rewrite map_map. auto. }
    unfold made_face_ids. rewrite Ff. unfold pA. apply Permutation_map. apply NoDup_Permutation; auto; [apply seq_NoDup|].
    intros x. rewrite c19, in_seq. tauto.
  Qed.

  Theorem done_members : members_to z h h' the_patch.
  Proof.
    intros y Hy. pose proof done_zone as Za. rewrite the_nodes, the_edges. destruct (Nat.eqb_spec y z) as [E|N].
    - subst y. split; [apply (za_nodes _ _ _ _ _ _ _ _ Za)|]. split.
      + exists (keep (pDE t E0) (z_edges h z)). split; [apply keep_others|apply (za_edges _ _ _ _ _ _ _ _ Za)].
      + destruct (za_faces _ _ _ _ _ _ _ _ Za) as (A' & Pe & E). exists (keep F0 (z_faces h z)), A'.
        split; [apply keep_others|]. split; [auto|]. rewrite <- Pe. apply the_faces.
    - rewrite !app_nil_r. split; [apply (za_nodes_other _ _ _ _ _ _ _ _ Za); auto|]. split.
      + exists (keep (pDE t E0) (z_edges h y)). rewrite app_nil_r.
        split; [apply keep_others|apply (za_edges_other _ _ _ _ _ _ _ _ Za); auto].
      + exists (keep F0 (z_faces h y)), []. rewrite app_nil_r.
        split; [apply keep_others|]. split; [apply (za_faces_other _ _ _ _ _ _ _ _ Za); auto|constructor].
  Qed.

  Theorem done_patched_to : patched_to (fun _ => Some z) h h' the_patch.
  Proof.
    pose proof done_applied as Ap. pose proof done_zone as Za. pose proof Ma as Ma'.
    destruct Ma'. destruct ma_pts0 as [P1 P2]. destruct ma_FD0 as (D1 & D2 & D3).
    destruct (fixed_fields _ _ (i_fixed _ _ _ I)) as (Z1 & Z2 & Z3 & _ & G1 & G2 & G3).
    destruct (checks t C) as (c1 & c2 & c3 & c4 & c5 & c6 & c7 & c8 & c9 & c10 & c11 & c12 & c13 & c14 & c15 & c16 & c17 & c18 & c19).
    assert (Ff : map (fun x => fst (fst x)) (made_faces the_patch) = map ff (seq (kF t) (nF t))).
    { unfold the_patch. cbn. rewrite map_map. cbn. rewrite <- (combine_fst _ _ (seq (kF t) (nF t)) src) at 2; [|rewrite seq_length; auto].
      rewrite map_map. auto. }
    constructor; cbn [gone_faces gone_edges made_nodes made_edges the_patch].
    - rewrite combine_fst; [apply Ap|]. unfold pAN. rewrite seq_length. auto.
    - exists (keep (pDE t E0) (g_edges h)). split; [apply keep_others|]. rewrite (ap_edges _ _ _ _ _ _ _ _ _ _ Ap). f_equal.
      rewrite map_map. cbn. unfold pAE, ee. symmetry.
      assert (K : forall n k, k + n <= nE t -> map (PatchTmpl.ee t h E0) (seq (kE t + k) n) = seq (next_e h + k) n).
      { induction n as [|n IH]; intros k Hk; auto. cbn. f_equal.
        - rewrite (ee_new _ _ _ _ _ Fi) by lia. lia.
        - rewrite <- !Nat.add_succ_r. apply IH. lia. }
      specialize (K (nE t) 0). rewrite !Nat.add_0_r in K. apply K. auto.
    - exists (keep F0 (g_faces h)), (pA t h F0). split; [apply keep_others|]. split; [apply Ap|].
      unfold made_face_ids. rewrite Ff. unfold pA. apply Permutation_map. apply NoDup_Permutation; auto; [apply seq_NoDup|].
      intros x. rewrite c19, in_seq. tauto.
    - split; [apply (fi_in _ _ _ _ _ Fi)|apply DE_incl].
    - intros n p Hn. unfold pAN in Hn. rewrite <- P2 in Hn. apply In_combine_seq in Hn as (i & -> & Hi). split.
      + intros K. apply (t_node_alloc h T) in K. lia.
      + apply (done_pts i p Hi).
    - intros e x y He. apply in_map_iff in He as (j & E & Hj). apply in_seq in Hj. injection E as <- E.
      split.
      + intros K. apply (t_edge_alloc h T) in K. unfold ee in K. rewrite (ee_new _ _ _ _ _ Fi) in K; lia.
      + destruct (ap_new_e _ _ _ _ _ _ _ _ _ _ Ap (ee j)) as [K _]; [apply (AE_In _ _ _ _ _ Fi); eauto|].
        rewrite K. unfold ee. rewrite (sel_turn_NE _ _ _ _ _ T C Fi) by lia.
        destruct (c13 j Hj) as [L _]. fold nn. rewrite <- (map_length nn) in L.
        destruct (map nn (sel (turn (tNE t)) j)) as [|u [|v [|w r]]]; try discriminate L.
        cbn in E. injection E as <- <-. apply Permutation_refl.
    - intros f x y w g He. cbn in He. apply in_map_iff in He as ([j s] & E & Hj). cbn in E. injection E as <- E <-.
      rewrite <- D2 in Hj. apply In_combine_seq in Hj as (i & -> & Hi).
      assert (Li : i < nF t) by (rewrite <- D2; apply nth_error_Some; congruence).
      assert (Hs : s < kF t) by (apply D3; eapply nth_error_In; eauto).
      split.
      + intros K. apply (t_face_alloc h T) in K. unfold ff in K. rewrite (ff_new _ _ _ _ _ Fi) in K; lia.
      + split; [apply (ff_old _ _ _ _ _ Fi); auto|].
        assert (Af : In (ff (kF t + i)) (pA t h F0)) by (apply (A_In _ _ _ C); exists (kF t + i); split; [lia|auto]).
        split; [|split].
        * destruct (ap_new_f _ _ _ _ _ _ _ _ _ _ Ap (ff (kF t + i))) as [K _]; auto.
          rewrite K. unfold ff. rewrite (sel_turn_NF _ _ _ _ _ T C Fi) by lia.
          destruct (c14 (kF t + i) ltac:(lia)) as [L _]. fold nn. rewrite <- (map_length nn) in L.
          destruct (map nn (sel (turn (tNF t)) (kF t + i))) as [|u [|v [|q [|? ?]]]]; try discriminate L.
          cbn in E. injection E as <- <- <-. apply Permutation_refl.
        * unfold ff at 1. rewrite (ff_new _ _ _ _ _ Fi) by lia. replace (kF t + i - kF t) with i by lia.
          apply (i_f_data _ _ _ I). rewrite D1. rewrite nth_error_map, Hi. auto.
        * apply (za_new _ _ _ _ _ _ _ _ Za); auto.
    - intros n Hn. destruct (i_n_old _ _ _ I n) as (K1 & K2 & _ & K3); [apply (t_node_alloc h T); auto|auto].
    - intros e He. apply (i_e_nodes _ _ _ I). apply (t_edge_alloc h T); auto.
    - intros f Hf. destruct (i_f_old _ _ _ I f) as (K1 & K2 & K3 & K4 & _); [apply (t_face_alloc h T); auto|auto].
    - apply Ap.
    - auto.
    - auto.
    - split; [|split].
      + intros n p Hn. unfold pAN in Hn. rewrite <- P2 in Hn. apply In_combine_seq in Hn as (i & -> & Hi). lia.
      + intros e x He. apply in_map_iff in He as (j & E & Hj). apply in_seq in Hj. injection E as <- _.
        unfold ee. rewrite (ee_new _ _ _ _ _ Fi) by lia. lia.
      + intros f Hf. unfold made_face_ids in Hf. rewrite Ff in Hf. apply in_map_iff in Hf as (j & <- & Hj). apply in_seq in Hj.
        unfold ff. rewrite (ff_new _ _ _ _ _ Fi) by lia. lia.
  Qed.

  (** All that is known of the grid after the patch. *)
  Theorem done_all : rebuilt z h h' the_patch.
  Proof.
    split; [exact done_sound|]. split; [exact done_lists|]. split; [exact done_patched_to|exact done_members].
  Qed.
End Done.

Section Same.
  Context {F : FloatOps}.

  Lemma patched_same : forall z h h' P, patched_to (fun _ => Some z) h h' P ->
    (forall f, In f (gone_faces P) -> f_zone h f = Some z) -> patched h h' P.
  Proof.
    intros z h h' P [A1 A2 A3 A4 A5 A6 A7 A8 A9 A10 A11 A12 A13 A14] Same. constructor; auto.
    intros f a b c g H. destruct (A7 f a b c g H) as (K1 & K2 & K3 & K4 & K5).
    rewrite K5, (Same g K2). auto.
  Qed.

  Lemma consistent_sound : forall h, consistent h -> sound h.
  Proof.
    intros h (T & ZO & ZL & Nu & Me). split; [auto|]. split; [auto|]. split; [|auto].
    intros z Hz. destruct (ZL z Hz) as [L1 L2].
    split; [eapply sublist_NoDup; [exact L1|apply (t_nodes_nd h T)]|].
    split; [intros x Hx; eapply PatchDel.sublist_In; eauto|].
    split; [eapply sublist_NoDup; [exact L2|apply (t_edges_nd h T)]|].
    intros x Hx; eapply PatchDel.sublist_In; eauto.
  Qed.

  Lemma sound_consistent : forall h, sound h -> zone_lists_ok h -> consistent h.
  Proof. intros h (T & ZO & _ & Nu & Me) ZL. repeat (split; auto). Qed.

  (** From the general statement to that for gone faces in one zone. *)
  Lemma back_same : forall z h h' P, consistent h ->
    (forall f, In f (gone_faces P) -> f_zone h f = Some z) ->
    rebuilt z h h' P -> consistent h' /\ patched h h' P.
  Proof.
    intros z h h' P Co Same (S1 & S2 & S3 & _). split.
    - apply sound_consistent; auto. apply S2; auto. apply Co.
    - eapply patched_same; eauto.
  Qed.
End Same.
