(** Breadth-first search: termination, completeness, connectivity. *)

From Coq Require Import ZArith NArith Ascii String Bool Lia List Permutation.
From Verif Require Import Py PyLemmas Heap HeapLemmas GridModel GridSpec DecompProofs AssignProofs.
Import ListNotations.
Open Scope list_scope.

Section Bfs.
  Context {F : FloatOps}.

  (** The path [p] is a chain: every face but the first is adjacent to an earlier one. *)
  Definition chain (h : heap) (p : list nat) : Prop :=
    forall k g, nth_error p (S k) = Some g ->
      exists j f, j <= k /\ nth_error p j = Some f /\ adjacent h f g.

  Lemma chain_firstn : forall h p k, chain h p -> chain h (firstn k p).
  Proof.
    intros h p n H k g Hk.
    assert (forall j, j < n -> nth_error (firstn n p) j = nth_error p j) as Hf.
    { clear. intros j. revert p j. induction n as [|n IH]; intros p j Hj; [lia|].
      destruct p; destruct j; simpl; auto. apply IH. lia. }
    assert (Hl : S k < n).
    { apply Nat.lt_le_trans with (length (firstn n p)).
      - apply nth_error_Some. congruence.
      - rewrite firstn_length. lia. }
    rewrite Hf in Hk by lia. destruct (H k g Hk) as (j & f & Hj & Hn & Ha).
    exists j, f. split; auto. rewrite Hf by lia. auto.
  Qed.

  Lemma reach_weaken : forall h (P Q : nat -> Prop) f g, (forall x, P x -> Q x) ->
    reach h P f g -> reach h Q f g.
  Proof.
    intros h P Q f g HPQ H. induction H; [constructor; auto|].
    eapply reach_step; eauto.
  Qed.

  Lemma chain_reach : forall h a p, chain h (a :: p) ->
    forall k g, nth_error (a :: p) k = Some g -> reach h (fun x => In x (a :: p)) a g.
  Proof.
    intros h a p H k. induction k as [k IH] using lt_wf_ind. intros g Hg.
    destruct k as [|k].
    - simpl in Hg. inv Hg. constructor. simpl; auto.
    - destruct (H k g Hg) as (j & f & Hj & Hf & Ha).
      eapply reach_step; [apply (IH j); [lia|exact Hf]|exact Ha|].
      eapply nth_error_In; eauto.
  Qed.

  Lemma reach_trans : forall h P f g k, reach h P f g -> reach h P g k -> reach h P f k.
  Proof.
    intros h P f g k H1 H2. induction H2; [auto|]. eapply reach_step; [apply IHreach; auto|eauto|auto].
  Qed.

  Lemma reach_in : forall h (P : nat -> Prop) f g, reach h P f g -> P f /\ P g.
  Proof. intros h P f g H. induction H; auto. tauto. Qed.

  Lemma adjacent_sym : forall h f g, topo_ok h -> In f (g_faces h) -> In g (g_faces h) ->
    adjacent h f g -> adjacent h g f.
  Proof.
    intros h f g Ht Hf Hg (Hn & e & He & Hfe & Hge). split; auto.
    exists e. split; [|auto]. apply (t_ef h Ht); auto. apply (t_face_edges h Ht f); auto.
  Qed.

  Lemma reach_sym : forall h (P : nat -> Prop) f g, topo_ok h -> (forall x, P x -> In x (g_faces h)) ->
    reach h P f g -> reach h P g f.
  Proof.
    intros h P f g Ht HP H. induction H; [constructor; auto|].
    pose proof (reach_in _ _ _ _ H) as [_ Hg].
    eapply reach_trans; [|exact IHreach].
    eapply reach_step; [constructor; auto| |auto]. apply adjacent_sym; auto.
  Qed.

  Lemma chain_connected : forall h p, topo_ok h -> incl p (g_faces h) -> chain h p -> connected h p.
  Proof.
    intros h p Ht Hi Hc f g Hf Hg.
    destruct p as [|a p]; [destruct Hf|].
    apply In_nth_error in Hf as (i & Hf). apply In_nth_error in Hg as (j & Hg).
    eapply reach_trans; [|eapply chain_reach; eauto].
    apply reach_sym; auto. eapply chain_reach; eauto.
  Qed.

  Section Run.
    Variable h0 : heap.
    Variable pred : heap -> nat -> bool.
    Hypothesis Ht : topo_ok h0.
    Hypothesis pred_marks : forall v f, pred (set_f_mark h0 v) f = pred h0 f.

    Let hm (m : nat -> option bool) : heap := set_f_mark h0 m.

    (** Faces that a search started with marks [m] may visit. *)
    Definition cand (m : nat -> option bool) (g : nat) : Prop :=
      In g (g_faces h0) /\ pred h0 g = true /\ m g = Some false.

    Definition marks_are (m : nat -> option bool) (p : list nat) (m' : nat -> option bool) : Prop :=
      forall g, m' g = if in_dec Nat.eq_dec g p then Some true else m g.

    Definition total (m : nat -> option bool) : Prop := forall g, In g (g_faces h0) -> m g <> None.

    Lemma neighbour : forall f e, In f (g_faces h0) -> In e (f_edges h0 f) ->
      is_border h0 e = false ->
      exists g, get_neighbour h0 f e = Ok (Some g) /\ In g (g_faces h0) /\ adjacent h0 f g /\
        (forall k, In k (e_faces h0 e) -> k <> f -> k = g).
    Proof.
      intros f e Hf He Hb. destruct (t_face_edges h0 Ht f Hf) as (_ & _ & Hie).
      destruct (t_edge_faces h0 Ht e (Hie _ He)) as (Hl & Hnd & Hif).
      assert (Hfe : In f (e_faces h0 e)) by (apply (t_ef h0 Ht); auto).
      assert (Hx : forall g, In g (e_faces h0 e) -> g <> f -> adjacent h0 f g).
      { intros g Hg Hgf. split; [congruence|]. exists e. auto. }
      unfold is_border in Hb. apply Nat.eqb_neq in Hb. unfold get_neighbour.
      destruct (e_faces h0 e) as [|a [|b [|c l]]] eqn:E; simpl in *; try lia.
      inv Hnd. simpl in H1.
      assert (Hia : In a (g_faces h0)) by (apply Hif; simpl; auto).
      assert (Hib : In b (g_faces h0)) by (apply Hif; simpl; auto).
      destruct (Nat.eqb_spec a f) as [->|Ha].
      - exists b. split; [auto|]. split; [auto|]. split; [apply Hx; auto; intro; subst; tauto|].
        intros k [<-|[<-|[]]] Hk; auto; contradiction.
      - destruct (Nat.eqb_spec b f) as [->|Hb'].
        + exists a. split; [auto|]. split; [auto|]. split; [apply Hx; auto|].
          intros k [<-|[<-|[]]] Hk; auto; contradiction.
        + destruct Hfe as [?|[?|[]]]; contradiction.
    Qed.

    Lemma marks_snoc : forall m p m' g, marks_are m p m' -> marks_are m (p ++ [g]) (upd m' g (Some true)).
    Proof.
      intros m p m' g H k. unfold upd. rewrite H.
      destruct (Nat.eqb_spec k g) as [->|Hk].
      - destruct (in_dec Nat.eq_dec g (p ++ [g])) as [|Hn]; auto.
        exfalso. apply Hn. apply in_or_app. right; simpl; auto.
      - destruct (in_dec Nat.eq_dec k p) as [Hi|Hi];
          destruct (in_dec Nat.eq_dec k (p ++ [g])) as [Hi'|Hi']; auto.
        + exfalso. apply Hi'. apply in_or_app; auto.
        + apply in_app_or in Hi' as [?|[?|[]]]; congruence.
    Qed.

    Definition inv_path (m : nat -> option bool) (p : list nat) (m' : nat -> option bool) : Prop :=
      NoDup p /\ Forall (cand m) p /\ chain h0 p /\ marks_are m p m'.

    Lemma bfs_edges_ok : forall m f i, total m -> In f (g_faces h0) ->
      forall es p m', incl es (f_edges h0 f) -> nth_error p i = Some f -> inv_path m p m' ->
      exists q m'', bfs_edges pred f es p (hm m') = (Ok (p ++ q), hm m'') /\
        inv_path m (p ++ q) m'' /\
        (forall e g, In e es -> In g (e_faces h0 e) -> g <> f -> cand m g -> In g (p ++ q)).
    Proof.
      intros m f i Htot Hf es. induction es as [|e es IH]; intros p m' Hi Hp Hinv.
      - exists [], m'. rewrite app_nil_r. split; [reflexivity|]. split; auto. intros e g [].
      - assert (He : In e (f_edges h0 f)) by (apply Hi; simpl; auto).
        assert (Hi' : incl es (f_edges h0 f)) by (intros x Hx; apply Hi; simpl; auto).
        cbn [bfs_edges]. rewrite bind_gets.
        change (is_border (hm m') e) with (is_border h0 e).
        destruct (is_border h0 e) eqn:Eb.
        { destruct (IH p m' Hi' Hp Hinv) as (q & m'' & E & Hinv' & Hc).
          exists q, m''. split; [auto|]. split; [auto|].
          intros e' g [<-|He'] Hg Hgf Hcd; [|eapply Hc; eauto].
          exfalso. unfold is_border in Eb. apply Nat.eqb_eq in Eb.
          assert (In f (e_faces h0 e)).
          { apply (t_ef h0 Ht); auto. apply (t_face_edges h0 Ht f); auto. }
          destruct (e_faces h0 e) as [|a [|b l]]; simpl in *; try discriminate.
          destruct H as [?|[]], Hg as [?|[]]; congruence. }
        destruct (neighbour f e Hf He Eb) as (g & En & Hg & Hadj & Honly).
        unfold bind at 1. change (get_neighbour (hm m') f e) with (get_neighbour h0 f e).
        rewrite En. destruct Hinv as (Hnd & Hall & Hch & Hmk).
        assert (Hmg : exists b, m' g = Some b).
        { rewrite Hmk. destruct (in_dec Nat.eq_dec g p); eauto.
          destruct (m g) eqn:Em; eauto. exfalso. eapply Htot; eauto. }
        destruct Hmg as (b & Hb).
        rewrite (bind_run _ _ _ _ (hm m') b (hm m')).
        2:{ unfold get_mark. change (f_mark (hm m') g) with (m' g). rewrite Hb. auto. }
        rewrite bind_gets. unfold hm at 1. rewrite pred_marks.
        destruct (negb b && pred h0 g) eqn:Eok.
        + apply andb_prop in Eok as [Eb' Epred]. destruct b; [discriminate|]. clear Eb'.
          assert (Hng : ~ In g p /\ m g = Some false).
          { rewrite Hmk in Hb. destruct (in_dec Nat.eq_dec g p); [discriminate|]. auto. }
          destruct Hng as [Hng Hmg].
          unfold set_mark at 1. rewrite bind_modify.
          change (set_f_mark (hm m') (upd (f_mark (hm m')) g (Some true)))
            with (hm (upd m' g (Some true))).
          assert (Hinv1 : inv_path m (p ++ [g]) (upd m' g (Some true))).
          { split; [apply NoDup_snoc; auto|]. split.
            { apply Forall_app. split; auto. constructor; auto. repeat split; auto. }
            split; [|apply marks_snoc; auto].
            intros k x Hx.
            destruct (Nat.lt_ge_cases (S k) (length p)) as [Hlt|Hge].
            - rewrite nth_error_app1 in Hx by auto.
              destruct (Hch k x Hx) as (j & y & Hj & Hy & Ha). exists j, y. split; auto.
              split; auto. rewrite nth_error_app1; auto. lia.
            - rewrite nth_error_app2 in Hx by auto.
              destruct (S k - length p) as [|d] eqn:Ed; [|destruct d; discriminate].
              simpl in Hx. inv Hx. exists i, f.
              assert (i < length p) by (apply nth_error_Some; congruence).
              split; [lia|]. split; auto. rewrite nth_error_app1; auto. }
          destruct (IH (p ++ [g]) (upd m' g (Some true)) Hi') as (q & m'' & E & Hinv' & Hc); auto.
          { rewrite nth_error_app1; auto. apply nth_error_Some. congruence. }
          rewrite <- app_assoc in *. exists ([g] ++ q), m''.
          split; [auto|]. split; [auto|].
          intros e' k [<-|He'] Hk Hkf Hcd; [|eapply Hc; eauto].
          rewrite (Honly k Hk Hkf). apply in_or_app. right. simpl; auto.
        + destruct (IH p m' Hi' Hp) as (q & m'' & E & Hinv' & Hc); [repeat split; auto|].
          exists q, m''. split; [auto|]. split; [auto|].
          intros e' k [<-|He'] Hk Hkf Hcd; [|eapply Hc; eauto].
          rewrite (Honly k Hk Hkf) in Hcd. destruct Hcd as (_ & Hpr & Hmf).
          rewrite Hpr, andb_true_r in Eok. destruct b; [|discriminate].
          rewrite (Honly k Hk Hkf).
          apply in_or_app. left. rewrite Hmk in Hb. destruct (in_dec Nat.eq_dec g p); auto. congruence.
    Qed.

    Lemma path_bound : forall m p m', inv_path m p m' -> length p <= next_f h0.
    Proof.
      intros m p m' (Hnd & Hall & _). rewrite <- (seq_length (next_f h0) 0).
      apply NoDup_incl_length; auto. intros f Hf. apply in_seq.
      rewrite Forall_forall in Hall. destruct (Hall f Hf) as (Hg & _).
      apply (t_face_alloc h0 Ht) in Hg. lia.
    Qed.

    Definition closed_upto (m : nat -> option bool) (p : list nat) (i : nat) : Prop :=
      forall j f g, j < i -> nth_error p j = Some f -> adjacent h0 f g -> cand m g -> In g p.

    Lemma bfs_loop_ok : forall m, total m -> forall fuel p i m',
      inv_path m p m' -> closed_upto m p i -> i <= length p -> next_f h0 < fuel + i ->
      exists q m'', bfs_loop fuel pred p i (hm m') = (Ok (p ++ q), hm m'') /\
        inv_path m (p ++ q) m'' /\ closed_upto m (p ++ q) (length (p ++ q)).
    Proof.
      intros m Htot fuel. induction fuel as [|fuel IH]; intros p i m' Hinv Hcl Hi Hfuel.
      - pose proof (path_bound _ _ _ Hinv). lia.
      - cbn [bfs_loop]. destruct (nth_error p i) as [f|] eqn:Ef.
        + rewrite bind_gets. change (f_edges (hm m') f) with (f_edges h0 f).
          assert (Hf : In f (g_faces h0)).
          { destruct Hinv as (_ & Hall & _). rewrite Forall_forall in Hall.
            apply (Hall f). eapply nth_error_In; eauto. }
          destruct (bfs_edges_ok m f i Htot Hf (f_edges h0 f) p m') as (q & m1 & E & Hinv1 & Hc); auto.
          { intros x Hx. auto. }
          rewrite (bind_run _ _ _ _ _ _ _ E).
          assert (i < length p) by (apply nth_error_Some; congruence).
          destruct (IH (p ++ q) (S i) m1) as (q' & m2 & E2 & Hinv2 & Hcl2); auto.
          * intros j x g Hj Hx Ha Hg.
            assert (Hx' : nth_error p j = Some x) by (rewrite nth_error_app1 in Hx by lia; auto).
            destruct (Nat.eq_dec j i) as [->|Hji].
            -- assert (x = f) by congruence. subst x. destruct Ha as (Hne & e & He & _ & Hge).
               eapply Hc; eauto.
            -- apply in_or_app. left. eapply (Hcl j); eauto. lia.
          * rewrite app_length. lia.
          * lia.
          * exists (q ++ q'), m2. rewrite app_assoc. auto.
        + exists [], m'. rewrite app_nil_r. split; [reflexivity|]. split; auto.
          apply nth_error_None in Ef. replace (length p) with i by lia. auto.
    Qed.

    (** What a finished component search has found. *)
    Definition component (m : nat -> option bool) (start : nat) (c : list nat) : Prop :=
      NoDup c /\ hd_error c = Some start /\ chain h0 c /\
      (forall g, In g c <-> reach h0 (cand m) start g).

    Lemma bfs_component_ok : forall m start, total m -> In start (g_faces h0) ->
      exists c m', bfs_component start pred (hm m) = (Ok c, hm m') /\ marks_are m c m' /\
        (cand m start -> component m start c) /\ (~ cand m start -> c = []).
    Proof.
      intros m start Htot Hs. unfold bfs_component.
      destruct (m start) as [b|] eqn:Em; [|exfalso; eapply Htot; eauto].
      rewrite (bind_run _ _ _ _ (hm m) b (hm m)).
      2:{ unfold get_mark. change (f_mark (hm m) start) with (m start). rewrite Em. auto. }
      rewrite bind_gets. unfold hm at 1. rewrite pred_marks.
      destruct (b || negb (pred h0 start)) eqn:Eb.
      - exists [], m. split; [reflexivity|]. split; [intros g; auto|]. split; auto.
        intros (_ & Hp & Hm). rewrite Hp in Eb. rewrite Em in Hm. inv Hm. discriminate.
      - apply orb_false_elim in Eb as [-> Ep]. apply negb_false_iff in Ep.
        unfold set_mark at 1. rewrite bind_modify.
        change (set_f_mark (hm m) (upd (f_mark (hm m)) start (Some true)))
          with (hm (upd m start (Some true))).
        rewrite bind_gets. change (next_f (hm (upd m start (Some true)))) with (next_f h0).
        assert (Hcs : cand m start) by (repeat split; auto).
        destruct (bfs_loop_ok m Htot (S (S (next_f h0))) [start] 0 (upd m start (Some true)))
          as (q & m' & E & Hinv & Hcl).
        + split; [constructor; [intros []|constructor]|]. split; [constructor; auto|].
          split; [intros k g Hk; destruct k; discriminate|].
          apply (marks_snoc m [] m start). intros g. reflexivity.
        + intros j f g Hj. lia.
        + lia.
        + lia.
        + destruct Hinv as (Hnd & Hall & Hch & Hmk).
          exists ([start] ++ q), m'. split; [auto|]. split; [auto|]. split; [|tauto].
          intros _. split; [auto|]. split; [auto|]. split; [auto|].
          intros g. split.
          * intros Hg. apply In_nth_error in Hg as (k & Hk). cbn [app] in *.
            pose proof (chain_reach h0 start q Hch k g Hk) as Hr.
            eapply reach_weaken; [|exact Hr]. intros x Hx.
            rewrite Forall_forall in Hall. apply Hall. auto.
          * assert (Hgen : forall x y, reach h0 (cand m) x y -> In x ([start] ++ q) -> In y ([start] ++ q)).
            { intros x y Hr. induction Hr as [|x y k Hr IHr Ha Hk]; [auto|]. intros Hx.
              specialize (IHr Hx). apply In_nth_error in IHr as (j & Hj).
              eapply (Hcl j); eauto. apply nth_error_Some. congruence. }
            intros Hr. apply (Hgen start g Hr). simpl; auto.
    Qed.

    Lemma no_mark_ok : forall m fs, total m -> incl fs (g_faces h0) ->
      exists o, no_bfs_mark_in pred fs (hm m) = (Ok o, hm m) /\
        match o with
        | Some s => In s fs /\ cand m s
        | None => forall g, In g fs -> ~ cand m g
        end.
    Proof.
      intros m fs Htot. induction fs as [|f fs IH]; intros Hi.
      - exists None. split; [reflexivity|]. intros g [].
      - cbn [no_bfs_mark_in].
        assert (Hf : In f (g_faces h0)) by (apply Hi; simpl; auto).
        destruct (m f) as [b|] eqn:Em; [|exfalso; eapply Htot; eauto].
        rewrite (bind_run _ _ _ _ (hm m) b (hm m)).
        2:{ unfold get_mark. change (f_mark (hm m) f) with (m f). rewrite Em. auto. }
        rewrite bind_gets. unfold hm at 1. rewrite pred_marks.
        destruct (negb b && pred h0 f) eqn:Eb.
        + apply andb_prop in Eb as [Eb Ep]. destruct b; [discriminate|].
          exists (Some f). split; [reflexivity|]. split; [simpl; auto|]. repeat split; auto.
        + destruct IH as (o & E & Ho); [intros x Hx; apply Hi; simpl; auto|].
          exists o. split; [auto|]. destruct o as [s|].
          * destruct Ho. split; simpl; auto.
          * intros g [<-|Hg]; [|auto]. intros (_ & Hp & Hm). rewrite Hp, andb_true_r in Eb.
            rewrite Em in Hm. inv Hm. discriminate.
    Qed.

    (** Admissible faces of the grid. *)
    Definition adm (g : nat) : Prop := In g (g_faces h0) /\ pred h0 g = true.

    Definition marked_exactly (p : list nat) (m : nat -> option bool) : Prop :=
      forall g, In g (g_faces h0) -> m g = Some (if in_dec Nat.eq_dec g p then true else false).

    Lemma bfs_path_loop_ok : forall fuel start p m,
      In start (g_faces h0) -> NoDup p -> Forall adm p -> marked_exactly p m ->
      length (g_faces h0) + (if m start then 0 else 1) < length p + fuel \/
      (cand m start /\ length (g_faces h0) < length p + fuel) ->
      (~ cand m start -> length (g_faces h0) + 1 < length p + fuel) ->
      exists q m', bfs_path_loop fuel start pred p (hm m) = (Ok (p ++ q), hm m') /\
        NoDup (p ++ q) /\ (forall g, In g (p ++ q) <-> adm g) /\
        (cand m start -> exists c r, q = c ++ r /\ component m start c) /\
        (q <> [] -> exists s c r, q = c ++ r /\ cand m s /\ component m s c).
    Proof.
      intros fuel. induction fuel as [|fuel IH]; intros start p m Hs Hnd Hall Hmk Hf1 Hf2.
      - exfalso.
        assert (Hl : length p <= length (g_faces h0)).
        { apply NoDup_incl_length; auto. intros x Hx. rewrite Forall_forall in Hall. apply Hall. auto. }
        destruct Hf1 as [Hf1|[_ Hf1]]; lia.
      - cbn [bfs_path_loop].
        assert (Htot : total m) by (intros g Hg; rewrite Hmk by auto; discriminate).
        destruct (bfs_component_ok m start Htot Hs) as (c & m1 & E1 & Hm1 & Hc & Hnc).
        rewrite (bind_run _ _ _ _ _ _ _ E1).
        assert (Hcdec : cand m start \/ ~ cand m start).
        { unfold cand. destruct (pred h0 start); [|right; intros (_ & ? & _); discriminate].
          destruct (m start) as [[|]|]; [right|left|right]; intuition discriminate. }
        assert (Hadm : forall x, In x c -> cand m x).
        { intros x Hx. destruct Hcdec as [Hcd|Hcd]; [|rewrite (Hnc Hcd) in Hx; destruct Hx].
          destruct (Hc Hcd) as (_ & _ & _ & Hr). apply Hr in Hx. apply reach_in in Hx. tauto. }
        assert (Hndc : NoDup c).
        { destruct Hcdec as [Hcd|Hcd]; [apply (Hc Hcd)|rewrite (Hnc Hcd); constructor]. }
        assert (Hdisj : forall x, In x p -> ~ In x c).
        { intros x Hx Hxc. destruct (Hadm x Hxc) as (Hg & _ & Hmx).
          rewrite (Hmk x Hg) in Hmx. destruct (in_dec Nat.eq_dec x p); [discriminate|contradiction]. }
        assert (Hnd1 : NoDup (p ++ c)) by (apply NoDup_app_intro; auto).
        assert (Hall1 : Forall adm (p ++ c)).
        { apply Forall_app. split; auto. apply Forall_forall. intros x Hx.
          destruct (Hadm x Hx) as (? & ? & _). split; auto. }
        assert (Hmk1 : marked_exactly (p ++ c) m1).
        { intros g Hg. rewrite Hm1.
          destruct (in_dec Nat.eq_dec g c) as [Hgc|Hgc];
            destruct (in_dec Nat.eq_dec g (p ++ c)) as [Hgp|Hgp]; auto.
          - exfalso. apply Hgp. apply in_or_app; auto.
          - rewrite Hmk by auto. apply in_app_or in Hgp as [Hgp|Hgp]; [|contradiction].
            destruct (in_dec Nat.eq_dec g p); [auto|contradiction].
          - rewrite Hmk by auto. destruct (in_dec Nat.eq_dec g p); [|auto].
            exfalso. apply Hgp. apply in_or_app; auto. }
        assert (Htot1 : total m1) by (intros g Hg; rewrite Hmk1 by auto; discriminate).
        unfold get_no_bfs_mark_face. rewrite bind_assoc, bind_gets.
        change (g_faces (hm m1)) with (g_faces h0).
        destruct (no_mark_ok m1 (g_faces h0) Htot1) as (o & E2 & Ho); [intros x Hx; auto|].
        rewrite (bind_run _ _ _ _ _ _ _ E2). destruct o as [s|].
        + destruct Ho as [Hsf Hcs].
          assert (Hl1 : cand m start -> 1 <= length c).
          { intros Hcd. destruct (Hc Hcd) as (_ & Hhd & _). destruct c; [discriminate|simpl; lia]. }
          destruct (IH s (p ++ c) m1) as (q & m2 & E3 & Hnd3 & Hall3 & _ & Hq3); auto.
          * right. split; auto. rewrite app_length.
            destruct Hcdec as [Hcd|Hcd].
            -- specialize (Hl1 Hcd). destruct Hf1 as [Hf1|[_ Hf1]]; lia.
            -- specialize (Hf2 Hcd). lia.
          * intros Hn. contradiction.
          * exists (c ++ q), m2. rewrite <- app_assoc in E3. rewrite app_assoc.
            split; [rewrite <- app_assoc; exact E3|]. split; [auto|]. split; [auto|].
            split; [intros Hcd; exists c, q; auto|].
            intros Hq. destruct Hcdec as [Hcd|Hcd]; [exists start, c, q; auto|].
            rewrite (Hnc Hcd) in *. cbn [app] in Hq. cbn [app].
            assert (Heq : forall x, cand m1 x <-> cand m x).
            { intros x. unfold cand. rewrite (Hm1 x). destruct (in_dec Nat.eq_dec x []) as [[]|]. tauto. }
            destruct (Hq3 Hq) as (s' & c' & r' & Eq & Hcs' & Hn' & Hh' & Hch' & Hr').
            exists s', c', r'. split; [auto|]. split; [apply Heq; auto|].
            split; [auto|]. split; [auto|]. split; [auto|].
            intros g. rewrite Hr'. split; apply reach_weaken; intros x; apply Heq.
        + exists c, m1. split; [reflexivity|]. split; [auto|]. split.
          * intros g. split.
            -- intros Hg. rewrite Forall_forall in Hall1. apply Hall1. auto.
            -- intros [Hg Hp]. destruct (in_dec Nat.eq_dec g (p ++ c)) as [|Hn]; auto.
               exfalso. apply (Ho g Hg). split; auto. split; auto. rewrite (Hmk1 g Hg).
               destruct (in_dec Nat.eq_dec g (p ++ c)); [contradiction|auto].
          * split; [intros Hcd; exists c, []; rewrite app_nil_r; auto|].
            intros Hq. destruct Hcdec as [Hcd|Hcd]; [|rewrite (Hnc Hcd) in Hq; congruence].
            exists start, c, []. rewrite app_nil_r. auto.
    Qed.

    Lemma clear_marks : forall fs m,
      exists m', for_each fs (fun f => set_mark f false) (hm m) = (Ok tt, hm m') /\
        (forall g, In g fs -> m' g = Some false) /\ (forall g, ~ In g fs -> m' g = m g).
    Proof.
      intros fs. induction fs as [|f fs IH]; intros m.
      - exists m. split; [reflexivity|]. split; [intros g []|auto].
      - cbn [for_each]. unfold set_mark at 1. rewrite bind_modify.
        change (set_f_mark (hm m) (upd (f_mark (hm m)) f (Some false)))
          with (hm (upd m f (Some false))).
        destruct (IH (upd m f (Some false))) as (m' & E & H1 & H2).
        exists m'. split; [exact E|]. split.
        + intros g [<-|Hg]; [|auto]. destruct (in_dec Nat.eq_dec f fs) as [Hi|Hi]; [auto|].
          rewrite H2 by auto. apply upd_same.
        + intros g Hg. rewrite H2 by (intro; apply Hg; simpl; auto).
          apply upd_other. intro; subst. apply Hg; simpl; auto.
    Qed.

    Lemma bfs_path_ok : forall start, In start (g_faces h0) ->
      exists p m', bfs_path start pred h0 = (Ok p, hm m') /\
        NoDup p /\ (forall g, In g p <-> adm g) /\
        (adm start -> exists c r, p = c ++ r /\ NoDup c /\ hd_error c = Some start /\ chain h0 c /\
           (forall g, In g c <-> reach h0 adm start g)) /\
        ((forall f g, adm f -> adm g -> reach h0 adm f g) -> chain h0 p).
    Proof.
      intros start Hs. unfold bfs_path. rewrite bind_gets.
      destruct (clear_marks (g_faces h0) (f_mark h0)) as (m & E & Hin & _).
      assert (Eh : hm (f_mark h0) = h0) by (destruct h0; reflexivity).
      rewrite Eh in E. rewrite (bind_run _ _ _ _ _ _ _ E). rewrite bind_gets.
      change (g_faces (hm m)) with (g_faces h0).
      assert (Hadm : forall g, adm g <-> cand m g).
      { intros g. unfold adm, cand. split; [intros [? ?]; auto|tauto]. }
      destruct (bfs_path_loop_ok (S (S (length (g_faces h0)))) start [] m)
        as (q & m' & E2 & Hnd & Hall & Hc & Hq); [auto| | | | | |].
      - constructor.
      - constructor.
      - intros g Hg. rewrite Hin by auto. destruct (in_dec Nat.eq_dec g []) as [[]|]; auto.
      - left. simpl. destruct (m start); lia.
      - intros _. simpl. lia.
      - exists q, m'. cbn [app] in *. split; [auto|]. split; [auto|]. split; [auto|].
        assert (Hcomp : forall s c, component m s c -> forall g, In g c <-> reach h0 adm s g).
        { intros s c (_ & _ & _ & H4) g. rewrite H4. split; apply reach_weaken; intros x; apply Hadm. }
        split.
        2:{ intros Hcon. destruct q as [|a q']; [intros k g Hk; discriminate|].
            destruct Hq as (s & c & r & Eq & Hs' & Hcs); [discriminate|].
            rewrite Eq in *. destruct r as [|b r].
            - rewrite app_nil_r. apply Hcs.
            - exfalso. assert (Hb : In b (c ++ b :: r)) by (apply in_or_app; simpl; auto).
              apply Hall in Hb. apply Hadm in Hs'. specialize (Hcon s b Hs' Hb).
              apply (Hcomp s c Hcs) in Hcon. apply NoDup_remove_2 in Hnd. apply Hnd.
              apply in_or_app; auto. }
        intros Ha. apply Hadm in Ha. destruct (Hc Ha) as (c & r & -> & H1 & H2 & H3 & H4).
        exists c, r. split; [auto|]. split; [auto|]. split; [auto|]. split; [auto|].
        intros g. rewrite H4. split; apply reach_weaken; intros x; apply Hadm.
    Qed.
  End Run.
End Bfs.
