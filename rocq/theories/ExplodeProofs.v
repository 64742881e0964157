(** Proofs about the explosion of a grid file. *)

From Coq Require Import ZArith Reals Ascii String Bool Lia List.
From Verif Require Import Py PyLemmas Heap HeapLemmas GridModel GridSpec DecompProofs Mpi MpiSpec GridIO FileSpec StoreSpec LoadParse LoadPlace LoadEdges LoadMain LoadProps
  RoundTrip PlainProofs SamplesStore Geom Programs Explode.
From Verif Require ZamProofs Convert ConvertSpec ConvertMore ExplodeSpec.
Import ListNotations.
Open Scope list_scope.
Open Scope nat_scope.

Section ExplodeProofs.
  Context {F : FloatOps}.

  (** The nodes of a grid loaded without merging, zone by zone. *)
  Lemma unmerged : forall text h h1 evs, load false text h = (Ok tt, h1) -> file_form [] (file_lines text) evs ->
    exists reps, concat reps = g_nodes h1 /\ length reps = length (zones_of evs) /\ map (n_p h1) (g_nodes h1) = all_pts (zones_of evs) /\
      incid h1 /\ length (g_zones h1) = length (zones_of evs) /\
      forall i z zr rp, nth_error (g_zones h1) i = Some z -> nth_error (zones_of evs) i = Some zr -> nth_error reps i = Some rp ->
        zone_placed h1 z zr rp.
  Proof.
    intros text h h1 evs E Hf. destruct (load_events false text h evs Hf) as (h0 & P & _ & _ & El). rewrite El in E.
    pose proof P as (reps & Hr & Hi & Hfr & L1 & L2 & Hp). exists reps.
    unfold finish in E. rewrite bind_gets in E. apply bind_inv in E as ([] & h2 & E1 & E2).
    destruct (edges_any h0 h2) as [U Er]; auto.
    { exact (placed_nodes3 _ _ _ P). }
    { apply (fr_ge _ Hfr). }
    { apply (nr_edges _ _ _ _ Hr). }
    destruct (finish_tail false _ h0 h2 P U Er) as (h2' & K1 & K2 & _ & _ & K5 & _).
    rewrite E2 in K1. injection K1 as <-.
    destruct (restE_fields _ _ Er) as (A1 & A2 & A3 & A4 & A5 & A6 & A7).
    destruct (restE_zones _ _ Er) as (B1 & B2 & B3 & B4 & B5 & B6 & B7 & B8 & B9 & B10 & B11 & B12).
    destruct (frameL_fields _ _ K5) as (C1 & C2 & C3 & C4 & C5 & C6 & C7 & _).
    destruct (frameL_more _ _ K5) as (D1 & D2 & D3 & D4 & D5 & D6 & D7 & D8 & D9 & D10 & D11 & D12 & D13).
    split; [rewrite C5, A1; exact (nr_same _ _ _ _ Hr eq_refl)|]. split; [exact L1|].
    split; [exact (ld_pts _ _ _ K2)|]. split; [exact (ld_incid _ _ _ K2)|]. split; [congruence|].
    intros i z zr rp Hz Hzr Hrp. apply (zone_placed_keep h0).
    - apply (Hp i); auto. congruence.
    - congruence.
    - congruence.
    - intros n Hn. split; congruence.
    - intros f Hn. split; [congruence|]. split; congruence.
  Qed.

  (* ---------------------------------------------------------------- *)
  (** ** Lists *)

  Lemma forall2_nth : forall A B (R : A -> B -> Prop) l l', length l = length l' ->
    (forall i x y, nth_error l i = Some x -> nth_error l' i = Some y -> R x y) -> Forall2 R l l'.
  Proof.
    intros A B R l. induction l as [|x l IH]; intros [|y l'] L H; cbn in L; try discriminate L; constructor.
    - apply (H 0); reflexivity.
    - apply IH; [lia|]. intros i a b Ha Hb. apply (H (S i)); auto.
  Qed.

  Lemma concat_split : forall A B (g : A -> B) (ps : list (list B)) (ls : list (list A)), map (@length _) ls = map (@length _) ps ->
    map g (concat ls) = concat ps -> Forall2 (fun p l => map g l = p) ps ls.
  Proof.
    intros A B g ps. induction ps as [|p ps IH]; intros [|l ls] L E; cbn in L; try discriminate L; constructor.
    - cbn [concat] in E. rewrite map_app in E. injection L as L _.
      apply (f_equal (firstn (length p))) in E. rewrite <- L in E at 1. rewrite <- (map_length g l) in E at 1.
      rewrite !firstn_app, !Nat.sub_diag, !firstn_all in E. cbn in E. rewrite !app_nil_r in E. exact E.
    - cbn [concat] in E. rewrite map_app in E. injection L as L L'. apply IH; auto.
      apply (f_equal (skipn (length p))) in E. rewrite <- L in E at 1. rewrite <- (map_length g l) in E at 1.
      rewrite !skipn_app, !Nat.sub_diag, !skipn_all in E. cbn in E. exact E.
  Qed.

  (** Elements at chosen places. *)
  Definition chosen {A} (c : nat -> bool) (a : nat) (l : list A) : list A :=
    map snd (filter (fun x => c (fst x)) (combine (seq a (length l)) l)).

  Lemma chosen_sub : forall A (P : A -> Prop) c l a, (forall i x, nth_error l i = Some x -> (P x <-> c (a + i) = true)) ->
    sublist_of P l (chosen c a l).
  Proof.
    intros A P c l. induction l as [|x l IH]; intros a H; [constructor|]. unfold chosen. cbn [length seq combine filter fst].
    specialize (IH (S a)). pose proof (H 0 x eq_refl) as H0. rewrite Nat.add_0_r in H0.
    assert (H' : forall i y, nth_error l i = Some y -> (P y <-> c (S a + i) = true)).
    { intros i y Hy. replace (S a + i) with (a + S i) by lia. apply (H (S i)). exact Hy. }
    destruct (c a) eqn:E.
    - cbn [map snd]. apply sub_keep; [apply H0; auto|apply IH; exact H'].
    - apply sub_drop; [intros K; apply H0 in K; congruence|apply IH; exact H'].
  Qed.

  Lemma chosen_map : forall A B (g : A -> B) c l a, map g (chosen c a l) = chosen c a (map g l).
  Proof.
    intros A B g c l. induction l as [|x l IH]; intros a; [reflexivity|]. unfold chosen in *. cbn [length seq combine filter fst map].
    destruct (c a); cbn [map snd]; [f_equal|]; apply IH.
  Qed.

  Lemma sub_none : forall A (P : A -> Prop) l, (forall x, In x l -> ~ P x) -> sublist_of P l [].
  Proof. intros A P l. induction l as [|x l IH]; intros H; constructor; [apply H; left; auto|apply IH; intros; apply H; right; auto]. Qed.

  Lemma sub_app : forall A (P : A -> Prop) l1 l1' l2 l2', sublist_of P l1 l1' -> sublist_of P l2 l2' -> sublist_of P (l1 ++ l2) (l1' ++ l2').
  Proof. intros A P l1 l1' l2 l2' H1 H2. induction H1; cbn; auto; constructor; auto. Qed.

  Lemma sub_concat : forall A (P : A -> Prop) i (ls : list (list A)) l l', nth_error ls i = Some l -> sublist_of P l l' ->
    (forall j m x, nth_error ls j = Some m -> j <> i -> In x m -> ~ P x) -> sublist_of P (concat ls) l'.
  Proof.
    intros A P i. induction i as [|i IH]; intros [|m ls] l l' Hi Hs Ho; try discriminate Hi; cbn [concat].
    - injection Hi as ->. rewrite <- (app_nil_r l'). apply sub_app; auto. apply sub_none.
      intros x Hx. apply in_concat in Hx as (w & Hw & Hx). apply In_nth_error in Hw as (j & Hj). apply (Ho (S j) w); auto.
    - apply (sub_app _ _ m [] (concat ls) l').
      + apply sub_none. intros x Hx. apply (Ho 0 m x); auto.
      + apply (IH ls l l'); auto. intros j w x Hj D. apply (Ho (S j) w); auto.
  Qed.

  (** Places in a concatenation without repetition. *)
  Lemma concat_nd : forall A (ls : list (list A)) i j l m x, NoDup (concat ls) -> nth_error ls i = Some l -> nth_error ls j = Some m ->
    In x l -> In x m -> i = j.
  Proof.
    intros A ls. induction ls as [|w ls IH]; intros i j l m x N Hi Hj Hx Hy; [destruct i; discriminate Hi|].
    cbn [concat] in N. apply NoDup_app_inv in N as (N1 & N2 & N3).
    destruct i as [|i], j as [|j]; auto; cbn in Hi, Hj.
    - injection Hi as ->. exfalso. apply (N3 x); auto. apply in_concat. exists m. split; auto. apply (nth_error_In _ _ Hj).
    - injection Hj as ->. exfalso. apply (N3 x); auto. apply in_concat. exists l. split; auto. apply (nth_error_In _ _ Hi).
    - f_equal. apply (IH i j l m x); auto.
  Qed.

  Lemma concat_part : forall A (ls : list (list A)) i l, NoDup (concat ls) -> nth_error ls i = Some l -> NoDup l.
  Proof.
    intros A ls. induction ls as [|w ls IH]; intros i l N Hi; [destruct i; discriminate Hi|].
    cbn [concat] in N. apply NoDup_app_inv in N as (N1 & N2 & _). destruct i as [|i]; cbn in Hi; [congruence|]. apply (IH i); auto.
  Qed.

  (* ---------------------------------------------------------------- *)
  (** ** Nodes of zones *)

  Definition at_corner (zr : zone_rec) (i : nat) : bool :=
    existsb (fun t => let '(a, b, c) := t in (Nat.eqb i a || Nat.eqb i b || Nat.eqb i c)%bool) (zr_conn zr).

  Lemma used_chosen : forall zr, ExplodeSpec.used_points zr = chosen (at_corner zr) 0 (zr_pts zr).
  Proof. reflexivity. Qed.

  Lemma at_corner_ok : forall zr i, at_corner zr i = true <-> exists k a b c, nth_error (zr_conn zr) k = Some (a, b, c) /\ (i = a \/ i = b \/ i = c).
  Proof.
    intros zr i. unfold at_corner. rewrite existsb_exists. split.
    - intros ([[a b] c] & Ht & E). apply In_nth_error in Ht as (k & Hk). exists k, a, b, c. split; auto.
      rewrite !orb_true_iff, !Nat.eqb_eq in E. tauto.
    - intros (k & a & b & c & Hk & E). exists (a, b, c). split; [apply (nth_error_In _ _ Hk)|].
      rewrite !orb_true_iff, !Nat.eqb_eq. tauto.
  Qed.

  Lemma nd_place : forall A (l : list A) i j x, NoDup l -> nth_error l i = Some x -> nth_error l j = Some x -> i = j.
  Proof. intros A l i j x N Hi Hj. apply (proj1 (NoDup_nth_error l) N); [apply nth_error_Some; congruence|congruence]. Qed.

  Lemma occurs : forall (l l' : list nat) x y, count_occ Nat.eq_dec l x = count_occ Nat.eq_dec l' y -> In x l -> In y l'.
  Proof. intros l l' x y E H. apply (count_occ_In Nat.eq_dec) in H. apply (count_occ_In Nat.eq_dec). lia. Qed.

  Lemma zone_nodes : forall text h h1 evs, load false text h = (Ok tt, h1) -> file_form [] (file_lines text) evs ->
    exists reps, concat reps = g_nodes h1 /\ Forall2 (fun zr rp => map (n_p h1) rp = zr_pts zr) (zones_of evs) reps /\
      length (g_zones h1) = length (zones_of evs) /\ length reps = length (zones_of evs) /\
      forall i z zr rp, nth_error (g_zones h1) i = Some z -> nth_error (zones_of evs) i = Some zr -> nth_error reps i = Some rp ->
        zone_placed h1 z zr rp /\ z_nodes h1 z = chosen (at_corner zr) 0 rp.
  Proof.
    intros text h h1 evs E Hf. destruct (unmerged _ _ _ _ E Hf) as (reps & Hc & L & Hp & Hi & Lz & Hz).
    destruct (load_result _ _ _ _ _ E Hf) as [Ld _]. exists reps. split; [exact Hc|].
    pose proof (ld_zok _ _ _ Ld) as Zk. pose proof (ld_nd _ _ _ Ld) as Nd. rewrite <- Hc in Nd.
    assert (Lr : forall i z zr rp, nth_error (g_zones h1) i = Some z -> nth_error (zones_of evs) i = Some zr -> nth_error reps i = Some rp ->
      length rp = length (zr_pts zr)).
    { intros i z zr rp A B C. destruct (Hz i z zr rp A B C) as (_ & Q & _). clear - Q; induction Q; cbn; auto. }
    split; [|split; [exact Lz|split; [exact L|]]].
    - rewrite <- Hc in Hp. unfold all_pts in Hp. rewrite flat_map_concat_map in Hp.
      assert (Q : Forall2 (fun p l => map (n_p h1) l = p) (map zr_pts (zones_of evs)) reps).
      { apply concat_split; auto. apply ZamProofs.nth_error_ext'. intros i. rewrite !nth_error_map.
        destruct (nth_error reps i) as [rp|] eqn:A.
        - assert (i < length reps) by (apply nth_error_Some; congruence).
          destruct (nth_error (zones_of evs) i) as [zr|] eqn:B; [|apply nth_error_None in B; lia].
          destruct (nth_error (g_zones h1) i) as [z|] eqn:C; [|apply nth_error_None in C; lia].
          cbn. f_equal. exact (Lr i z zr rp C B A).
        - apply nth_error_None in A. destruct (nth_error (zones_of evs) i) as [zr|] eqn:B; [|reflexivity].
          assert (i < length (zones_of evs)) by (apply nth_error_Some; congruence). lia. }
      apply forall2_nth; [congruence|]. intros i zr rp A B. clear - Q A B. revert i A B.
      remember (map zr_pts (zones_of evs)) as ps eqn:Ep. revert Ep. generalize (zones_of evs) as zs.
      induction Q as [|p l ps ls H Q IH]; intros [|z zs] Ep i A B; try discriminate Ep; [destruct i; discriminate A|].
      injection Ep as E1 E2. destruct i as [|i]; cbn in A, B.
      + injection A as <-. injection B as <-. congruence.
      + apply (IH zs E2 i); auto.
    - intros i z zr rp A B C. pose proof (Hz i z zr rp A B C) as Pl. split; [exact Pl|].
      assert (Hz' : In z (g_zones h1)) by apply (nth_error_In _ _ A).
      destruct (ld_lists _ _ _ Ld z Hz') as [S1 _]. rewrite <- Hc in S1.
      assert (Nr : NoDup rp) by exact (concat_part _ _ _ _ Nd C).
      assert (G : forall n, some_face_in h1 (n_faces h1 n) z -> In n (concat reps) -> exists k a b c, nth_error (zr_conn zr) k = Some (a, b, c) /\
        (nth_error rp a = Some n \/ nth_error rp b = Some n \/ nth_error rp c = Some n)).
      { intros n (f & Hfn & Hfz) Hn. rewrite Hc in Hn.
        assert (Hfg : In f (g_faces h1)) by exact (in_faces _ Hi n Hn f Hfn).
        assert (Hzf : In f (z_faces h1 z)) by (apply (zo_faces _ Zk z f Hz'); auto).
        assert (Hnf : In n (f_nodes h1 f)) by (apply (occurs _ _ f n (in_count _ Hi n f Hn Hfg)); auto).
        apply In_nth_error in Hzf as (k & Hk). destruct Pl as (_ & _ & _ & Pl).
        destruct (Pl k f Hk) as (_ & row & a & b & c & na & nb & nc & _ & H2 & _ & H4 & H5 & H6 & H7).
        exists k, a, b, c. split; auto. rewrite H7 in Hnf. destruct Hnf as [<-|[<-|[<-|[]]]]; auto. }
      apply (sublist_unique _ _ _ _ _ S1). apply (sub_concat _ _ i _ rp); auto.
      + apply chosen_sub. intros j n Hj. cbn [Nat.add]. rewrite at_corner_ok.
        assert (Hn : In n (concat reps)) by (apply in_concat; exists rp; split; [apply (nth_error_In _ _ C)|apply (nth_error_In _ _ Hj)]).
        split.
        * intros P. destruct (G n P Hn) as (k & a & b & c & Hk & Q). exists k, a, b, c. split; auto.
          destruct Q as [Q|[Q|Q]]; rewrite (nd_place _ _ _ _ _ Nr Hj Q); auto.
        * intros (k & a & b & c & Hk & Q). pose proof Pl as (_ & _ & Lf & Pf).
          destruct (nth_error (z_faces h1 z) k) as [f|] eqn:Ek.
          2:{ apply nth_error_None in Ek. assert (k < length (zr_conn zr)) by (apply nth_error_Some; congruence). lia. }
          destruct (Pf k f Ek) as (Hfz & row & a' & b' & c' & na & nb & nc & _ & H2 & _ & H4 & H5 & H6 & H7).
          rewrite Hk in H2. injection H2 as <- <- <-. exists f. split; [|exact Hfz].
          assert (Hzf : In f (z_faces h1 z)) by apply (nth_error_In _ _ Ek).
          apply (zo_faces _ Zk z f Hz') in Hzf as [Hfg _]. rewrite Hc in Hn.
          apply (occurs (f_nodes h1 f) _ n f); [symmetry; exact (in_count _ Hi n f Hn Hfg)|].
          rewrite H7. destruct Q as [<-|[<-|<-]]; [left|right; left|right; right; left]; congruence.
      + intros j m x Hj D Hx P.
        assert (Hn : In x (concat reps)) by (apply in_concat; exists m; split; [apply (nth_error_In _ _ Hj)|auto]).
        destruct (G x P Hn) as (k & a & b & c & _ & Q). apply D. symmetry.
        apply (concat_nd _ reps i j rp m x Nd C Hj); auto. destruct Q as [Q|[Q|Q]]; apply (nth_error_In _ _ Q).
  Qed.

  Lemma chosen_in : forall A c (l : list A) a x, In x (chosen c a l) -> In x l.
  Proof.
    intros A c l a x H. unfold chosen in H. apply in_map_iff in H as ([i y] & <- & H). apply filter_In in H as [H _].
    apply in_combine_r in H. exact H.
  Qed.

  Lemma chosen_nd : forall A c (l : list A) a, NoDup l -> NoDup (chosen c a l).
  Proof.
    intros A c l. induction l as [|x l IH]; intros a N; [constructor|]. apply NoDup_cons_iff in N as [N1 N2].
    unfold chosen. cbn [length seq combine filter fst]. specialize (IH (S a) N2). destruct (c a).
    - cbn [map snd]. constructor; [|exact IH]. intros K. apply N1. apply (chosen_in _ _ _ _ _ K).
    - exact IH.
  Qed.

  (** Zones with faces have nodes and share none. *)
  Lemma zones_apart : forall text h h1 evs, load false text h = (Ok tt, h1) -> file_form [] (file_lines text) evs ->
    (forall zr, In zr (zones_of evs) -> zr_conn zr <> []) -> ConvertSpec.apart (map (z_nodes h1) (g_zones h1)).
  Proof.
    intros text h h1 evs E Hf Hne. destruct (zone_nodes _ _ _ _ E Hf) as (reps & Hc & _ & Lz & Lr & Hz).
    destruct (load_result _ _ _ _ _ E Hf) as [Ld _].
    pose proof (ld_nd _ _ _ Ld) as Nd. rewrite <- Hc in Nd.
    assert (Get : forall i z, nth_error (g_zones h1) i = Some z -> exists zr rp, nth_error (zones_of evs) i = Some zr /\ nth_error reps i = Some rp).
    { intros i z A. assert (i < length (g_zones h1)) by (apply nth_error_Some; congruence).
      destruct (nth_error (zones_of evs) i) as [zr|] eqn:B; [|apply nth_error_None in B; lia].
      destruct (nth_error reps i) as [rp|] eqn:C; [|apply nth_error_None in C; lia]. eauto. }
    split.
    - apply Forall_forall. intros ns Hns. apply in_map_iff in Hns as (z & <- & Hzi). apply In_nth_error in Hzi as (i & A).
      destruct (Get i z A) as (zr & rp & B & C). destruct (Hz i z zr rp A B C) as (Pl & ->). split.
      + intros K. assert (Hcn : zr_conn zr <> []) by (apply Hne; apply (nth_error_In _ _ B)).
        destruct (zr_conn zr) as [|[[a b] c] ts] eqn:Ec; [auto|].
        destruct Pl as (_ & _ & Lf & Pf). destruct (z_faces h1 z) as [|f fs] eqn:Ef; [rewrite Ec in Lf; discriminate Lf|].
        destruct (Pf 0 f eq_refl) as (_ & row & a' & b' & c' & na & nb & nc & _ & H2 & _ & H4 & _).
        rewrite Ec in H2. injection H2 as <- <- <-.
        assert (Q : In na (chosen (at_corner zr) 0 rp)); [|rewrite K in Q; destruct Q].
        assert (S1 : sublist_of (fun n => exists i, nth_error rp i = Some n /\ at_corner zr i = true) rp (chosen (at_corner zr) 0 rp)).
        { apply chosen_sub. intros j n Hj. cbn [Nat.add]. split.
          - intros (j' & Hj' & T). rewrite (nd_place _ _ _ _ _ (concat_part _ _ _ _ Nd C) Hj Hj'). exact T.
          - intros T. exists j. auto. }
        apply (sublist_In _ _ _ _ na S1). split; [apply (nth_error_In _ _ H4)|]. exists a. split; auto.
        apply at_corner_ok. exists 0, a, b, c. rewrite Ec. auto.
      + apply chosen_nd. exact (concat_part _ _ _ _ Nd C).
    - assert (Q : forall l pre, g_zones h1 = pre ++ l -> ForallOrdPairs (fun z w : list nat => forall n, In n z -> ~ In n w) (map (z_nodes h1) l)).
      { induction l as [|z l IH]; intros pre Ep; [constructor|]. cbn [map]. constructor.
        - apply Forall_forall. intros ns Hns n Hn Hn'. apply in_map_iff in Hns as (w & <- & Hw). apply In_nth_error in Hw as (j & Hj).
          assert (A : nth_error (g_zones h1) (length pre) = Some z) by (rewrite Ep, nth_error_app2, Nat.sub_diag by lia; reflexivity).
          assert (A' : nth_error (g_zones h1) (length pre + S j) = Some w).
          { rewrite Ep, nth_error_app2 by lia. replace (length pre + S j - length pre) with (S j) by lia. exact Hj. }
          destruct (Get _ _ A) as (zr & rp & B & C). destruct (Get _ _ A') as (zr' & rp' & B' & C').
          destruct (Hz _ _ _ _ A B C) as (_ & Z1). destruct (Hz _ _ _ _ A' B' C') as (_ & Z2). rewrite Z1 in Hn. rewrite Z2 in Hn'.
          pose proof (concat_nd _ _ _ _ _ _ n Nd C C' (chosen_in _ _ _ _ _ Hn) (chosen_in _ _ _ _ _ Hn')). lia.
        - apply (IH (pre ++ [z])). rewrite Ep, <- app_assoc. reflexivity. }
      exact (Q _ [] eq_refl).
  Qed.

  (* ---------------------------------------------------------------- *)
  (** ** The files *)

  Lemma row_values : forall (vars : list str) (row : list val), NoDup vars -> length row = length vars ->
    map (fun k => match dget str_dec (dict_of str_dec (combine vars row)) k with Some v => v | None => val0 end) vars = row.
  Proof.
    intros vars row N L. rewrite dict_of_nodup by auto. clear - N L. revert row L.
    induction vars as [|k vars IH]; intros [|v row] L; try discriminate L; [reflexivity|].
    apply NoDup_cons_iff in N as [N1 N2]. cbn [combine map dget]. destruct (str_dec k k) as [_|D]; [|contradiction].
    f_equal. rewrite <- (IH N2 row) at 1 by (cbn in L; lia). apply map_ext_in. intros x Hx.
    destruct (str_dec x k) as [->|_]; [contradiction|reflexivity].
  Qed.

  Variables (real : val -> R) (near : R -> val).

  Lemma vector_of : forall p, ExplodeSpec.vector real p = vect_of real p.
  Proof. intros [[x y] z]. reflexivity. Qed.

  Theorem explode_ok : forall k text h h1 evs vars, faithful_numbers -> load false text h = (Ok tt, h1) -> file_form [] (file_lines text) evs ->
    no_degenerate (zones_of evs) -> (forall zr, In zr (zones_of evs) -> NoDup (map rnd (zr_pts zr))) ->
    title_in evs <> None \/ plain_name (g_name h) ->
    zones_of evs <> [] -> (forall zr, In zr (zones_of evs) -> zr_conn zr <> [] /\ zr_vars zr = vars) -> NoDup vars ->
    exists out h' evs', explode_file real near k text h = (Ok out, h') /\ file_form [] (file_lines out) evs' /\
      title_in evs' = Some (g_name h1) /\
      Forall2 (fun zr zr' => ExplodeSpec.moved_zone real near (ExplodeSpec.way real k (zones_of evs) zr) zr zr') (zones_of evs) (zones_of evs').
  Proof.
    intros k text h h1 evs vars Hn E Hf Nd Sp Ht Hzne Hzs Nv.
    destruct (zone_nodes _ _ _ _ E Hf) as (reps & Hc & Hp & Lz & Lr & Hz).
    assert (Ap : ConvertSpec.apart (map (z_nodes h1) (g_zones h1))).
    { apply (zones_apart _ _ _ _ E Hf). intros zr Hzr. apply (Hzs zr Hzr). }
    destruct (load_incidence_main _ _ _ _ _ E Hf Nd (or_intror Sp)) as [Tk Zk].
    destruct (load_result _ _ _ _ _ E Hf) as [Ld _].
    destruct (loaded_names _ _ _ _ _ E Hf) as (W1 & W2 & W3).
    assert (Rec : forall zr, In zr (zones_of evs) -> zone_rec_ok zr) by exact (file_form_ok _ _ _ Hf).
    (* the first face *)
    assert (F0 : exists z zs zr zrs f fs, g_zones h1 = z :: zs /\ zones_of evs = zr :: zrs /\ z_faces h1 z = f :: fs /\ exists r, g_faces h1 = f :: r).
    { destruct (zones_of evs) as [|zr zrs] eqn:Ez; [contradiction|]. destruct (g_zones h1) as [|z zs] eqn:Eg; [discriminate Lz|].
      destruct reps as [|rp reps']; [discriminate Lr|].
      destruct (Hz 0 z zr rp eq_refl eq_refl eq_refl) as ((_ & _ & Lf & _) & _).
      destruct (Hzs zr (or_introl eq_refl)) as [Cn _]. destruct (zr_conn zr); [contradiction|].
      destruct (z_faces h1 z) as [|f fs] eqn:Ef; [discriminate Lf|].
      exists z, zs, zr, zrs, f, fs. repeat (split; [auto|]).
      destruct (ld_zones _ _ _ Ld) as (_ & Gf & _). rewrite Gf, Eg. cbn [flat_map]. rewrite Ef. eexists. reflexivity. }
    destruct F0 as (z0 & zs0 & zr0 & zrs0 & f0 & fs0 & Eg0 & Ez0 & Ef0 & r0 & Gf0).
    assert (Data : forall i z zr rp j f, nth_error (g_zones h1) i = Some z -> nth_error (zones_of evs) i = Some zr -> nth_error reps i = Some rp ->
      nth_error (z_faces h1 z) j = Some f -> exists row, nth_error (zr_data zr) j = Some row /\ length row = length vars /\
        f_data h1 f = dict_of str_dec (combine vars row)).
    { intros i z zr rp j f A B C Hj. destruct (Hz i z zr rp A B C) as ((_ & _ & _ & Pf) & _).
      destruct (Pf j f Hj) as (_ & row & a & b & c & na & nb & nc & H1 & _ & H3 & _). exists row. split; [exact H1|].
      assert (Hzr : In zr (zones_of evs)) by apply (nth_error_In _ _ B). destruct (Hzs zr Hzr) as [_ Ev]. rewrite Ev in H3.
      split; [|exact H3]. destruct (Rec zr Hzr) as (_ & Lrow & _). rewrite <- Ev. apply Lrow. apply (nth_error_In _ _ H1). }
    assert (Gv : grid_vars h1 = vars).
    { unfold grid_vars. rewrite Gf0. destruct reps as [|rp reps']; [rewrite Ez0 in Lr; discriminate Lr|].
      destruct (Data 0 z0 zr0 rp 0 f0) as (row & _ & Lw & ->); [rewrite Eg0|rewrite Ez0| |rewrite Ef0|]; try reflexivity.
      rewrite dict_of_nodup by auto. unfold keys. clear - Lw. revert row Lw. induction vars as [|x l IH]; intros [|y row] L; try discriminate L; [reflexivity|].
      cbn. f_equal. apply IH. cbn in L. lia. }
    (* the move *)
    assert (Gn : g_nodes h1 <> []).
    { intros K. destruct Ap as [Ap _]. rewrite Eg0 in Ap. cbn [map] in Ap. inversion Ap as [|? ? [Q _] _]; subst.
      destruct (z_nodes h1 z0) as [|n ns] eqn:En; [apply Q; reflexivity|].
      destruct (ld_lists _ _ _ Ld z0) as [S1 _]; [rewrite Eg0; left; auto|]. rewrite En, K in S1. inversion S1. }
    destruct (ConvertMore.explosion_ok (fun n => vect_of real (n_p h1 n)) (g_nodes h1) (map (z_nodes h1) (g_zones h1)) k Gn Ap) as (Q & EQ & Qin & _).
    set (pos := fun n => if in_dec Nat.eq_dec n (flat_map (z_nodes h1) (g_zones h1)) then pt_of near (Q n) else n_p h1 n).
    set (h2 := set_n_p h1 pos).
    assert (Wr : writable h2).
    { split; [change (g_faces h1 <> []); rewrite Gf0; discriminate|]. split; [exact (W3 Ht)|]. split; [exact W1|].
      change (grid_vars h2) with (grid_vars h1). unfold grid_vars. rewrite Gf0. apply W2. rewrite Gf0. left. auto. }
    assert (Ok2 : grid_ok h2) by (destruct Tk, Zk; split; constructor; assumption).
    destruct (store_form h2 Hn Ok2 (ld_lists _ _ _ Ld) (numbered_of _ (ld_num _ _ _ Ld)) Wr) as (out & zrs & Es & Hd & Hff).
    exists out, h2, (ETitle (g_name h2) :: map EZone zrs). split; [|split; [exact Hff|split]].
    - unfold explode_file. rewrite (bind_run _ _ _ _ _ _ _ E). unfold explode_grid.
      rewrite bind_assoc. rewrite bind_gets. cbv beta. rewrite bind_assoc. rewrite EQ. rewrite bind_lift_ok. cbv beta.
      rewrite bind_modify. cbv beta. rewrite bind_gets. cbv beta. fold pos. fold h2. rewrite Es. reflexivity.
    - pose proof (title_after_map [] (g_name h2) zrs) as T. unfold title_after in T.
      destruct (title_in (ETitle (g_name h2) :: map EZone zrs)) as [t|] eqn:Et; [f_equal; exact T|].
      exfalso. unfold title_in in Et. cbn [fold_left] in Et. clear - Et.
      assert (G : forall (l : list zone_rec) t, fold_left (fun t e => match e with ETitle s => Some s | EZone _ => t end) (map EZone l) (Some t) = Some t).
      { induction l as [|x l IH]; intros t; [reflexivity|]. cbn. apply IH. }
      rewrite G in Et. discriminate Et.
    - rewrite zones_of_map.
      assert (Ld2 : length (zones_of evs) = length zrs).
      { rewrite <- Lz. clear - Hd. change (g_zones h2) with (g_zones h1) in Hd. induction Hd; cbn; auto. }
      apply forall2_nth; [exact Ld2|]. intros i zr zr' B B'.
      assert (Li : i < length (zones_of evs)) by (apply nth_error_Some; congruence).
      destruct (nth_error (g_zones h1) i) as [z|] eqn:A; [|apply nth_error_None in A; lia].
      destruct (nth_error reps i) as [rp|] eqn:C; [|apply nth_error_None in C; lia].
      destruct (Hz i z zr rp A B C) as (Pl & Zn).
      assert (De : describes h2 (grid_vars h2) z zr').
      { clear - Hd A B'. change (g_zones h1) with (g_zones h2) in A. revert i A B'. induction Hd as [|u v us vs H Hd IH]; intros i A B'; [destruct i; discriminate A|].
        destruct i as [|i]; cbn in A, B'; [congruence|apply (IH i); auto]. }
      destruct De as (D1 & D2 & D3 & D4 & D5). change (grid_vars h2) with (grid_vars h1) in D2, D4. rewrite Gv in D2, D4.
      destruct (Hzs zr (nth_error_In _ _ B)) as [_ Ev].
      assert (Pr : map (n_p h1) rp = zr_pts zr).
      { clear - Hp B C. revert i B C. induction Hp as [|u v us vs H Hp IH]; intros i B C; [destruct i; discriminate B|].
        destruct i as [|i]; cbn in B, C; [congruence|apply (IH i); auto]. }
      assert (Hzin : In z (g_zones h1)) by apply (nth_error_In _ _ A).
      assert (Us : map (n_p h1) (z_nodes h1 z) = ExplodeSpec.used_points zr).
      { rewrite Zn, used_chosen, chosen_map, Pr. reflexivity. }
      set (s := ExplodeSpec.way real k (zones_of evs) zr).
      assert (Pos : forall n, In n (z_nodes h1 z) -> pos n = ExplodeSpec.moved real near s (n_p h1 n)).
      { intros n Hnz. unfold pos. destruct (in_dec _ _ _) as [_|D]; [|exfalso; apply D; apply in_flat_map; eauto].
        rewrite (Qin (z_nodes h1 z) n); [|apply in_map; auto|auto]. unfold ExplodeSpec.moved, pt_of. change (ExplodeSpec.vector real) with (vect_of real).
        replace (vmul (vsub (ConvertSpec.mean (map (fun n => vect_of real (n_p h1 n)) (z_nodes h1 z)))
          (ConvertSpec.mean (map (fun n => vect_of real (n_p h1 n)) (g_nodes h1)))) k) with s; [reflexivity|].
        unfold s, ExplodeSpec.way. rewrite <- Us, <- (ld_pts _ _ _ Ld), !map_map.
        assert (Me : forall l, map (fun x => ExplodeSpec.vector real (n_p h1 x)) l = map (fun n => vect_of real (n_p h1 n)) l)
          by (intros l; apply map_ext; intros m; apply vector_of).
        rewrite !Me. reflexivity. }
      split; [rewrite D1; exact (proj1 Pl)|]. split; [congruence|]. split.
      { rewrite D4. apply ZamProofs.nth_error_ext'. intros j. rewrite nth_error_map. destruct Pl as (_ & _ & Lf & _).
        destruct (nth_error (z_faces h2 z) j) as [f|] eqn:Ej.
        - destruct (Data i z zr rp j f A B C Ej) as (row & Er & Lw & Ed). rewrite Er. cbn [option_map]. f_equal.
          unfold var_value. change (f_data h2 f) with (f_data h1 f). rewrite Ed. apply row_values; auto.
        - apply nth_error_None in Ej. change (z_faces h2 z) with (z_faces h1 z) in Ej. cbn [option_map]. symmetry. apply nth_error_None.
          destruct (Rec zr (nth_error_In _ _ B)) as (Lc & _). lia. }
      split.
      { rewrite D3. change (z_nodes h2 z) with (z_nodes h1 z). rewrite <- Us, map_map. apply map_ext_in. exact Pos. }
      { destruct Pl as (_ & _ & Lf & Pf).
        assert (Lc' : length (zr_conn zr') = length (z_faces h1 z)).
        { change (z_faces h2 z) with (z_faces h1 z) in D5. clear - D5. induction D5; cbn; auto. }
        apply forall2_nth; [congruence|]. intros j t t' Hj Hj'.
        destruct (nth_error (z_faces h1 z) j) as [f|] eqn:Ej.
        2:{ apply nth_error_None in Ej. assert (j < length (zr_conn zr)) by (apply nth_error_Some; congruence). lia. }
        assert (Cj : FileSpec.corners zr' t' = map Some (map (n_p h2) (f_nodes h1 f))).
        { change (z_faces h2 z) with (z_faces h1 z) in D5. change (f_nodes h2) with (f_nodes h1) in D5. clear - D5 Ej Hj'.
          revert j Ej Hj'. induction D5 as [|u v us vs H D5 IH]; intros j A B; [destruct j; discriminate A|].
          destruct j as [|j]; cbn in A, B; [congruence|apply (IH j); auto]. }
        rewrite Cj. destruct (Pf j f Ej) as (Fz & row & a & b & c & na & nb & nc & _ & H2 & _ & H4 & H5 & H6 & H7).
        rewrite Hj in H2. injection H2 as ->. rewrite H7. unfold FileSpec.corners. rewrite <- Pr, !nth_error_map, H4, H5, H6.
        cbn [map option_map]. change (n_p h2) with pos.
        assert (Znf : forall n, In n (f_nodes h1 f) -> In n (z_nodes h1 z)).
        { intros n Hnf. assert (Hzf : In f (z_faces h1 z)) by apply (nth_error_In _ _ Ej).
          destruct (proj1 (zo_faces _ Zk z f Hzin) Hzf) as [Gf Zf].
          destruct (t_face_nodes _ Tk f Gf) as (_ & _ & If). assert (Hng : In n (g_nodes h1)) by (apply If; exact Hnf).
          apply (proj2 (sublist_In _ _ _ _ n (proj1 (ld_lists _ _ _ Ld z Hzin)))). split; [exact Hng|].
          exists f. split; [|exact Zf]. apply (t_nf _ Tk n f Hng Gf). exact Hnf. }
        rewrite !Pos by (apply Znf; rewrite H7; cbn; auto). reflexivity. }
  Qed.

  (** A zone without faces stops the program. *)
  Theorem explode_empty : forall k text h h1 evs zr out h', load false text h = (Ok tt, h1) -> file_form [] (file_lines text) evs ->
    In zr (zones_of evs) -> zr_conn zr = [] -> explode_file real near k text h <> (Ok out, h').
  Proof.
    intros k text h h1 evs zr out h' E Hf Hzr Hc X. destruct (zone_nodes _ _ _ _ E Hf) as (reps & _ & _ & Lz & Lr & Hz).
    apply In_nth_error in Hzr as (i & B). assert (Li : i < length (zones_of evs)) by (apply nth_error_Some; congruence).
    destruct (nth_error (g_zones h1) i) as [z|] eqn:A; [|apply nth_error_None in A; lia].
    destruct (nth_error reps i) as [rp|] eqn:C; [|apply nth_error_None in C; lia].
    destruct (Hz i z zr rp A B C) as (_ & Zn).
    assert (Ze : z_nodes h1 z = []).
    { rewrite Zn. unfold chosen, at_corner. rewrite Hc. cbn [existsb]. generalize (combine (seq 0 (length rp)) rp).
      intros l. induction l as [|x l IH]; [reflexivity|exact IH]. }
    unfold explode_file in X. rewrite (bind_run _ _ _ _ _ _ _ E) in X. unfold explode_grid in X.
    rewrite bind_assoc, bind_gets in X. cbv beta in X. rewrite bind_assoc in X.
    destruct (Convert.move_from_mean_point _ _ _ _) as [q|e] eqn:Eq.
    - refine (ConvertMore.explosion_empty _ _ _ _ (or_intror _) (ex_intro _ q Eq)). rewrite <- Ze. apply (in_map (z_nodes h1)). apply (nth_error_In _ _ A).
    - discriminate X.
  Qed.
End ExplodeProofs.
