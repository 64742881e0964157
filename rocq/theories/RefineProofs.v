(** Proofs about refine.py: what the requests do to a sound grid. *)

From Coq Require Import ZArith NArith Bool Lia List Permutation Relations.
From Verif Require Import Py PyLemmas Heap HeapLemmas GridModel GridSpec DecompProofs Atomic AtomicSpec AtomicActs PatchProofs PatchDone AtomicRun
  AtomicProofs AtomicTwo AtomicCut AtomicInner AtomicMain AtomicSeq Refine RefineSpec.
Import ListNotations.
Open Scope list_scope.
Open Scope nat_scope.

Section Steps.
  Context {F : FloatOps}.

  (** [h] came from [h0] by requests for [ps] that divided the faces [gone] of [h0]. *)
  Record inv (h0 h : heap) (ps : list pt) (gone : nat -> Prop) : Prop := {
    v_refined : refined h0 h ps gone;
    v_sound : sound h;
    v_single : no_double_faces h;
    v_next : next_f h0 <= next_f h;
    v_edges : forall f e, In f (g_faces h0) -> ~ gone f -> In e (f_edges h0 f) -> e_nodes h e = e_nodes h0 e
  }.

  Lemma inv_start : forall h, sound h -> no_double_faces h -> inv h h [] (fun _ => False).
  Proof.
    intros h S N. constructor; auto. constructor.
    - exists []. rewrite app_nil_r. auto.
    - auto.
    - tauto.
    - auto.
    - tauto.
  Qed.

  Lemma inv_ext : forall h0 h ps gone gone', inv h0 h ps gone -> (forall f, In f (g_faces h0) -> (gone f <-> gone' f)) ->
    inv h0 h ps gone'.
  Proof.
    intros h0 h ps gone gone' [[R1 R2 R3 R4 R5] S N L E] X. constructor; auto.
    - constructor; auto.
      + intros f Hf. rewrite (R3 f Hf), (X f Hf). tauto.
      + intros f Hf K. apply R4; auto. rewrite (X f Hf). auto.
      + intros f Hf K. destruct (R5 f Hf K) as (g & G1 & G2 & G3). exists g. rewrite <- (X g G1). auto.
    - intros f e Hf K. apply E; auto. rewrite (X f Hf). auto.
  Qed.

  Lemma inv_new : forall h0 h ps gone p q, inv h0 h ps gone -> sound h0 -> new_points h0 (ps ++ p :: q) -> new_point h p.
  Proof.
    intros h0 h ps gone p q [[R1 R2 _ _ _] (_ & _ & _ & _ & M) _ _ _] (_ & _ & _ & _ & M0) (N & Np) n Hn.
    rewrite (proj2 (proj2 M) n Hn). destruct R1 as (new & E1 & E2). rewrite E1 in Hn. apply in_app_or in Hn as [Hn|Hn].
    - rewrite (R2 n Hn). rewrite <- (proj2 (proj2 M0) n Hn). apply Np; auto. apply in_or_app. right. left. auto.
    - assert (K : In (n_p h n) ps) by (rewrite <- E2; apply in_map; auto).
      intros X. rewrite map_app in N. cbn [map] in N. apply NoDup_remove_2 in N. apply N. rewrite <- X. apply in_or_app. left. apply in_map. auto.
  Qed.

  (** A step by a patch. *)
  Lemma inv_patch : forall h0 h h' ps gone z P, sound h0 -> inv h0 h ps gone -> patched_to (fun _ => Some z) h h' P -> sound h' ->
    no_double_faces h' -> made_faces P <> [] ->
    inv h0 h' (ps ++ map snd (made_nodes P)) (fun f => gone f \/ In f (gone_faces P)).
  Proof.
    intros h0 h h' ps gone z P S0 [[R1 R2 R3 R4 R5] S N L E] Pa S' N' Hm.
    pose proof S0 as (T0 & _). pose proof S as (T & _). pose proof S' as (T' & _).
    destruct (pa_fresh _ _ _ _ Pa) as (_ & _ & Fr).
    destruct (pa_faces _ _ _ _ Pa) as (l & l' & Ol & Ef & Pf).
    assert (I' : forall f, In f (g_faces h') <-> (In f (g_faces h) /\ ~ In f (gone_faces P)) \/ In f (made_face_ids P)).
    { intros f. rewrite Ef, in_app_iff. rewrite (DecompProofs.sublist_In _ _ _ _ f Ol).
      split; (intros [K|K]; [left; auto|right]); [eapply Permutation_in; eauto|eapply Permutation_in; [symmetry; eauto|auto]]. }
    assert (Nx : next_f h <= next_f h').
    { destruct (made_faces P) as [|x r] eqn:Em; [congruence|].
      assert (K : In (fst (fst x)) (made_face_ids P)) by (unfold made_face_ids; rewrite Em; left; auto).
      pose proof (Fr _ K). assert (J : In (fst (fst x)) (g_faces h')) by (apply I'; auto).
      apply (t_face_alloc h' T') in J. lia. }
    assert (Old : forall f, In f (g_faces h0) -> ~ In f (made_face_ids P)).
    { intros f Hf K. apply Fr in K. apply (t_face_alloc h0 T0) in Hf. lia. }
    assert (Alive : forall f, In f (g_faces h0) -> ~ (gone f \/ In f (gone_faces P)) -> In f (g_faces h) /\ ~ gone f /\ ~ In f (gone_faces P)).
    { intros f Hf K. assert (~ gone f) by tauto. split; [apply R3; auto|tauto]. }
    constructor; auto.
    - constructor.
      + destruct R1 as (new & E1 & E2). exists (new ++ map fst (made_nodes P)).
        split; [rewrite (pa_nodes _ _ _ _ Pa), E1, app_assoc; auto|]. rewrite map_app. f_equal.
        * rewrite <- E2. apply map_ext_in. intros n Hn. apply (pa_old_node _ _ _ _ Pa). rewrite E1. apply in_or_app; auto.
        * rewrite map_map. apply map_ext_in. intros [n p] Hn. cbn. apply (pa_new_node _ _ _ _ Pa n p Hn).
      + intros n Hn. destruct R1 as (new & E1 & _). rewrite (proj1 (pa_old_node _ _ _ _ Pa n ltac:(rewrite E1; apply in_or_app; auto))). auto.
      + intros f Hf. rewrite I'. rewrite (R3 f Hf). pose proof (Old f Hf). tauto.
      + intros f Hf K. destruct (Alive f Hf K) as (K1 & K2 & K3). destruct (R4 f Hf K2) as (Q1 & Q2 & Q3 & Q4).
        destruct (pa_old_face _ _ _ _ Pa f K1) as (J1 & J2 & _ & J4). rewrite (pa_old_face_edges _ _ _ _ Pa f K1 K3).
        rewrite J1, J2, J4. auto.
      + intros f Hf Hn. apply I' in Hf as [[H1 H2]|Hf].
        * destruct (R5 f H1 Hn) as (g & G1 & G2 & G3). exists g. split; [auto|]. split; [auto|].
          rewrite (proj1 (proj2 (pa_old_face _ _ _ _ Pa f H1))). auto.
        * unfold made_face_ids in Hf. apply in_map_iff in Hf as ([[f' [[a b] c]] g] & Ex & Hx). cbn in Ex. subst f'.
          destruct (pa_new_face _ _ _ _ Pa _ _ _ _ _ Hx) as (_ & Hg & _ & D & _).
          pose proof (proj1 (pa_gone _ _ _ _ Pa) g Hg) as Ig.
          destruct (in_dec Nat.eq_dec g (g_faces h0)) as [J|J].
          -- exists g. split; [auto|]. split; [auto|]. rewrite D. apply (R4 g J). intros K. apply R3 in Ig; auto.
          -- destruct (R5 g Ig J) as (k & K1 & K2 & K3). exists k. split; [auto|]. split; [auto|]. rewrite D. auto.
    - lia.
    - intros f e Hf K He. destruct (Alive f Hf K) as (K1 & K2 & K3). rewrite <- (E f e Hf K2 He).
      apply (pa_old_edge _ _ _ _ Pa). apply (t_face_edges h T f K1). rewrite (proj1 (proj2 (R4 f Hf K2))). auto.
  Qed.

  (** The edge at a side of a face. *)
  Definition with_ends (h : heap) (u v e : nat) : Prop := In u (e_nodes h e) /\ In v (e_nodes h e).

  Lemma rfilter_ok : forall A (p : A -> res bool) q l, (forall x, In x l -> p x = Ok (q x)) -> rfilter p l = Ok (filter q l).
  Proof.
    intros A p q l. induction l as [|x l IH]; intros H; auto. cbn. rewrite (H x) by (left; auto). cbn.
    rewrite IH; [|intros y Hy; apply H; right; auto]. cbn. auto.
  Qed.

  Lemma edge_found : forall G h f u v, topo_ok h -> In f (g_faces h) -> In u (f_nodes h f) -> In v (f_nodes h f) -> u <> v ->
    (forall a b, In a (f_nodes h f) -> In b (f_nodes h f) -> (same G (n_p h a) (n_p h b) = true <-> a = b)) ->
    exists e, edge_between G f (n_p h u) (n_p h v) h = (Ok e, h) /\ In e (f_edges h f) /\ with_ends h u v e.
  Proof.
    intros G h f u v T Hf Hu Hv D Sm. destruct (t_face_edges h T f Hf) as (_ & _ & Ie).
    assert (Ends : forall e, In e (f_edges h f) -> exists a b, e_nodes h e = [a; b] /\ In a (f_nodes h f) /\ In b (f_nodes h f)).
    { intros e He. destruct (ends_of h e T (Ie e He)) as (a & b & En & _). exists a, b. split; auto.
      pose proof (t_tri h T f e Hf He) as K. rewrite En in K. split; apply K; cbn; auto. }
    set (q := fun e => match e_nodes h e with
      | a :: b :: _ => (same G (n_p h a) (n_p h u) && same G (n_p h b) (n_p h v)) || (same G (n_p h b) (n_p h u) && same G (n_p h a) (n_p h v))
      | _ => false end).
    assert (Q : forall e, In e (f_edges h f) -> (q e = true <-> with_ends h u v e)).
    { intros e He. destruct (Ends e He) as (a & b & En & Ha & Hb). unfold q, with_ends. rewrite En.
      rewrite orb_true_iff, !andb_true_iff. rewrite !Sm by auto. cbn. intuition congruence. }
    unfold edge_between. rewrite (rfilter_ok _ _ q).
    - cbn [rbind]. destruct (t_pairs h T f u v Hf Hu Hv D) as (e0 & H0 & H1 & H2).
      assert (Hin : In e0 (filter q (f_edges h f))) by (apply filter_In; split; auto; apply Q; auto; split; auto).
      destruct (filter q (f_edges h f)) as [|e r] eqn:El; [destruct Hin|].
      assert (J : In e (filter q (f_edges h f))) by (rewrite El; left; auto). apply filter_In in J as [J1 J2].
      exists e. split; [reflexivity|]. split; auto. apply Q; auto.
    - intros e He. destruct (Ends e He) as (a & b & En & _). unfold joins, q. rewrite En. auto.
  Qed.

  (** The faces of the edge are the faces with both ends. *)
  Lemma edge_sides : forall h f u v e, topo_ok h -> In f (g_faces h) -> In e (f_edges h f) -> with_ends h u v e -> u <> v ->
    forall g, In g (e_faces h e) <-> In g (g_faces h) /\ In u (f_nodes h g) /\ In v (f_nodes h g).
  Proof.
    intros h f u v e T Hf He [Hu Hv] D g. pose proof (proj2 (proj2 (t_face_edges h T f Hf)) e He) as Ie.
    destruct (t_edge_faces h T e Ie) as (_ & _ & If). split.
    - intros Hg. pose proof (If g Hg) as Ig. split; auto. apply (t_ef h T e g Ie Ig) in Hg.
      pose proof (t_tri h T g e Ig Hg) as K. split; apply K; auto.
    - intros (Ig & Gu & Gv). destruct (t_pairs h T g u v Ig Gu Gv D) as (e' & K1 & K2 & K3).
      pose proof (proj2 (proj2 (t_face_edges h T g Ig)) e' K1) as Ie'.
      assert (e' = e).
      { apply (t_uniq h T); auto. destruct (t_edge_nodes h T e' Ie') as (L & N & _).
        pose proof (perm2 u v _ L N K2 K3 D) as P. intros x Hx. apply (Permutation_in _ P) in Hx. destruct Hx as [<-|[<-|[]]]; auto. }
      subst e'. apply (t_ef h T e g Ie Ig). auto.
  Qed.

  (** The four transformations. *)
  Definition step_ok (h h' : heap) (ps : list pt) (hit : nat -> Prop) : Prop :=
    exists z P, patched_to (fun _ => Some z) h h' P /\ sound h' /\ no_double_faces h' /\ made_faces P <> [] /\
      map snd (made_nodes P) = ps /\ forall g, In g (gone_faces P) <-> hit g.

  Lemma step_inner : forall h f p, sound h -> no_double_faces h -> In f (g_faces h) -> new_point h p ->
    exists h', divide_face f p h = (Ok tt, h') /\ step_ok h h' [p] (fun g => g = f).
  Proof.
    intros h f p S N Hf Hp. pose proof S as (T & _).
    destruct (act_any h (ADivide f p) S N (conj Hf Hp)) as (h2 & E2 & _ & N2 & _).
    destruct (t_face_nodes h T f Hf) as (L & _). destruct (f_nodes h f) as [|n1 [|n2 [|n3 [|? ?]]]] eqn:En; try discriminate L.
    destruct (divide_face_any h f p n1 n2 n3 S Hf Hp En) as (z & h' & n & e4 & e5 & e6 & f1 & f2 & f3 & E & _ & So & _ & Pa & _).
    cbn [perform] in E2. rewrite E in E2. apply (f_equal snd) in E2. cbn [snd] in E2. subst h2.
    exists h'. split; auto. exists z. eexists. split; [exact Pa|]. split; auto. split; auto. split; [discriminate|].
    split; [reflexivity|]. cbn. intuition congruence.
  Qed.

  Lemma step_side : forall h f u v e p, sound h -> no_double_faces h -> In f (g_faces h) -> In e (f_edges h f) -> with_ends h u v e ->
    u <> v -> new_point h p ->
    exists h', (if length (e_faces h e) =? 2 then cut_edge e p ;;; ret tt else cut_single_edge e p ;;; ret tt) h = (Ok tt, h') /\
      step_ok h h' [p] (fun g => In g (g_faces h) /\ In u (f_nodes h g) /\ In v (f_nodes h g)).
  Proof.
    intros h f u v e p S N Hf He Hw D Hp. pose proof S as (T & _). pose proof (edge_sides h f u v e T Hf He Hw D) as Sd.
    pose proof (proj2 (proj2 (t_face_edges h T f Hf)) e He) as Ie. destruct (ends_of h e T Ie) as (n1 & n2 & En & _).
    destruct (faces_of h e T Ie) as [(f1 & Ef)|(f1 & f2 & Ef & Df)].
    - destruct (act_any h (ASingle e p) S N (conj Ie Hp)) as (h2 & E2 & _ & N2 & _). rewrite Ef in *. cbn [length Nat.eqb].
      destruct (cut_single_edge_any h e f1 p n1 n2 S Ie Ef En Hp) as (z & h' & n3 & n & e1 & e2 & e3 & g1 & g2 & _ & _ & _ & E & _ & So & _ & Pa & _).
      exists h'. cbn [perform] in E2. rewrite (bind_run _ _ _ _ _ _ _ E) in *. apply (f_equal snd) in E2. cbn in E2. subst h2.
      split; [reflexivity|]. exists z. eexists. split; [exact Pa|]. split; auto. split; auto. split; [discriminate|]. split; [reflexivity|]. exact Sd.
    - assert (H1 : In f1 (g_faces h)) by (apply (t_edge_faces h T e Ie); rewrite Ef; cbn; auto).
      assert (H2 : In f2 (g_faces h)) by (apply (t_edge_faces h T e Ie); rewrite Ef; cbn; auto).
      destruct (act_any h (ACut e p) S N (conj Ie Hp)) as (h2 & E2 & _ & N2 & _).
      destruct (cut_edge_any h e f1 f2 p n1 n2 S Ie Ef En Hp (pair_corners h f1 f2 N H1 H2)) as
        (z & h' & n3 & n4 & n & e1 & e2 & e3 & e4 & g1 & g2 & g3 & g4 & _ & _ & _ & _ & _ & _ & _ & E & _ & So & _ & Pa & _).
      rewrite Ef in *. cbn [length Nat.eqb].
      exists h'. cbn [perform] in E2. rewrite (bind_run _ _ _ _ _ _ _ E) in *. apply (f_equal snd) in E2. cbn in E2. subst h2.
      split; [reflexivity|]. exists z. eexists. split; [exact Pa|]. split; auto. split; auto. split; [discriminate|]. split; [reflexivity|]. exact Sd.
  Qed.

  Lemma step_two : forall h f u v e p q, sound h -> no_double_faces h -> In f (g_faces h) -> In e (f_edges h f) -> with_ends h u v e ->
    u <> v -> new_point h p -> new_point h q -> rnd p <> rnd q ->
    exists h', (cut_edge_with_two_nodes e p q ;;; ret tt) h = (Ok tt, h') /\
      step_ok h h' [p; q] (fun g => In g (g_faces h) /\ In u (f_nodes h g) /\ In v (f_nodes h g)).
  Proof.
    intros h f u v e p q S N Hf He Hw D Hp Hq Hpq. pose proof S as (T & _). pose proof (edge_sides h f u v e T Hf He Hw D) as Sd.
    pose proof (proj2 (proj2 (t_face_edges h T f Hf)) e He) as Ie. destruct (ends_of h e T Ie) as (n1 & n2 & En & _).
    destruct (act_any h (ATwo e p q) S N (conj Ie (conj Hp (conj Hq Hpq)))) as (h2 & E2 & _ & N2 & _).
    destruct (faces_of h e T Ie) as [(f1 & Ef)|(f1 & f2 & Ef & Df)].
    - destruct (cut_border_two_any h e f1 p q n1 n2 S Ie Ef En Hp Hq Hpq) as
        (z & h' & n3 & n4 & n5 & e1 & e2 & e3 & e4 & e5 & g1 & g2 & g3 & _ & _ & _ & E & _ & So & _ & Pa & _).
      rewrite Ef in *. exists h'. cbn [perform] in E2. rewrite (bind_run _ _ _ _ _ _ _ E) in *. apply (f_equal snd) in E2. cbn in E2. subst h2.
      split; [reflexivity|]. exists z. eexists. split; [exact Pa|]. split; auto. split; auto. split; [discriminate|]. split; [reflexivity|]. exact Sd.
    - assert (H1 : In f1 (g_faces h)) by (apply (t_edge_faces h T e Ie); rewrite Ef; cbn; auto).
      assert (H2 : In f2 (g_faces h)) by (apply (t_edge_faces h T e Ie); rewrite Ef; cbn; auto).
      destruct (cut_inner_two_any h e f1 f2 p q n1 n2 S Ie Ef En Hp Hq Hpq (pair_corners h f1 f2 N H1 H2)) as
        (z & h' & n3 & n6 & n4 & n5 & e1 & e2 & e3 & e4 & e5 & e6 & e7 & g1 & g2 & g3 & g4 & g5 & g6 & _ & _ & _ & _ & _ & _ & _ & E & _ & So & _ & Pa & _).
      rewrite Ef in *. exists h'. cbn [perform] in E2. rewrite (bind_run _ _ _ _ _ _ _ E) in *. apply (f_equal snd) in E2. cbn in E2. subst h2.
      split; [reflexivity|]. exists z. eexists. split; [exact Pa|]. split; auto. split; auto. split; [discriminate|]. split; [reflexivity|]. exact Sd.
  Qed.

  (** The points that count. *)
  Lemma kept_filter : forall G t pts kept, sublist_of (fun p => 2 <= cls G t p) pts kept ->
    filter (fun p => negb (cls G t p =? 0) && negb (cls G t p =? 1)) pts = kept.
  Proof.
    intros G t pts kept H. induction H as [|x l l' Hx H IH|x l l' Hx H IH]; auto; cbn.
    - destruct (cls G t x) as [|[|c]]; cbn in *; try lia. rewrite IH. auto.
    - destruct (cls G t x) as [|[|c]]; cbn in *; try lia; auto.
  Qed.

  Lemma side_unique : forall G t n1 n2 n3 p u v, on_side G t n1 n2 n3 p u v -> NoDup [n1; n2; n3] ->
    u <> v /\ In u [n1; n2; n3] /\ In v [n1; n2; n3].
  Proof.
    intros G t n1 n2 n3 p u v H N. apply NoDup3 in N as (A & B & C). unfold on_side in H. cbn in *. cbv zeta in H.
    destruct H as [(_ & -> & ->)|[(_ & _ & -> & ->)|(_ & _ & -> & ->)]]; intuition congruence.
  Qed.

  Lemma side_points : forall G h t n1 n2 n3 p u v, on_side G t n1 n2 n3 p u v ->
    t_a t = n_p h n1 -> t_b t = n_p h n2 -> t_c t = n_p h n3 -> point_on_edge G p t = (n_p h u, n_p h v).
  Proof.
    intros G h t n1 n2 n3 p u v H A B C. unfold point_on_edge. unfold on_side in H. cbv zeta in H.
    destruct H as [(E1 & -> & ->)|[(E1 & E2 & -> & ->)|(E1 & E2 & -> & ->)]]; rewrite ?E1, ?E2, ?A, ?B, ?C; auto.
  Qed.

  Lemma side_exists : forall G t n1 n2 n3 p, exists u v, on_side G t n1 n2 n3 p u v.
  Proof.
    intros G t n1 n2 n3 p. unfold on_side. cbv zeta. destruct (flat G (t_a t) (t_b t) p), (flat G p (t_b t) (t_c t)); eauto 12.
  Qed.

  (** Every triangle of a face of the grid asks for something, if only for nothing. *)
  Lemma sublist_exists : forall (P : pt -> Prop) l, (forall p, P p \/ ~ P p) -> exists k, sublist_of P l k.
  Proof.
    intros P l D. induction l as [|x l (k & IH)]; [exists []; constructor|].
    destruct (D x); [exists (x :: k)|exists k]; constructor; auto.
  Qed.

  Theorem asks_total : forall G h f pts, topo_ok h -> In f (g_faces h) ->
    exists t r, get_triangle h f = Ok t /\ asks G h (t, pts) r.
  Proof.
    intros G h f pts T Hf. destruct (t_face_nodes h T f Hf) as (L & _). unfold get_triangle.
    destruct (f_nodes h f) as [|n1 [|n2 [|n3 [|? ?]]]] eqn:En; try discriminate L.
    set (t := MkTri (n_p h n1) (n_p h n2) (n_p h n3) f). exists t.
    destruct (sublist_exists (fun p => 2 <= cls G t p) pts) as (kept & Hk); [intros p; lia|].
    assert (Res : forall r, match r with
      | RInner g p => g = f /\ kept = [p] /\ cls G t p <> 2
      | RSide g u v p => g = f /\ kept = [p] /\ cls G t p = 2 /\ on_side G t n1 n2 n3 p u v
      | RTwo g u v p q => g = f /\ kept = [p; q] /\ cls G t p = 2 /\ cls G t q = 2 /\
          on_side G t n1 n2 n3 p u v /\ on_side G t n1 n2 n3 q u v
      | RNone => kept = [] \/ 3 <= length kept \/
          exists p q, kept = [p; q] /\
            (cls G t p <> 2 \/ cls G t q <> 2 \/
             exists u v u' v', on_side G t n1 n2 n3 p u v /\ on_side G t n1 n2 n3 q u' v' /\ (u, v) <> (u', v'))
      end -> exists r, Ok t = Ok t /\ asks G h (t, pts) r).
    { intros r Hr. exists r. split; auto. exists n1, n2, n3, kept. cbn [fst snd t_a t_b t_c t_back t]. repeat (split; [auto|]). exact Hr. }
    destruct kept as [|p [|q [|q' kept]]].
    - apply (Res RNone). auto.
    - destruct (Nat.eq_dec (cls G t p) 2) as [C|C]; [|apply (Res (RInner f p)); auto].
      destruct (side_exists G t n1 n2 n3 p) as (u & v & O). apply (Res (RSide f u v p)). auto.
    - destruct (Nat.eq_dec (cls G t p) 2) as [C|C]; [|apply (Res RNone); right; right; exists p, q; auto].
      destruct (Nat.eq_dec (cls G t q) 2) as [C'|C']; [|apply (Res RNone); right; right; exists p, q; auto].
      destruct (side_exists G t n1 n2 n3 p) as (u & v & O). destruct (side_exists G t n1 n2 n3 q) as (u' & v' & O').
      destruct (Nat.eq_dec u u') as [->|D]; [destruct (Nat.eq_dec v v') as [->|D]|].
      + apply (Res (RTwo f u' v' p q)). repeat (split; [auto|]). auto.
      + apply (Res RNone). right; right. exists p, q. split; auto. right; right. exists u', v, u', v'. split; auto. split; auto. congruence.
      + apply (Res RNone). right; right. exists p, q. split; auto. right; right. exists u, v, u', v'. split; auto. split; auto. congruence.
    - apply (Res RNone). right; left. cbn. lia.
  Qed.

  Lemma divides_dec : forall h r f, divides h r f \/ ~ divides h r f.
  Proof.
    intros h [|g p|g u v p|g u v p q] f; cbn.
    - tauto.
    - destruct (Nat.eq_dec f g); auto.
    - destruct (in_dec Nat.eq_dec f (g_faces h)), (in_dec Nat.eq_dec u (f_nodes h f)), (in_dec Nat.eq_dec v (f_nodes h f)); tauto.
    - destruct (in_dec Nat.eq_dec f (g_faces h)), (in_dec Nat.eq_dec u (f_nodes h f)), (in_dec Nat.eq_dec v (f_nodes h f)); tauto.
  Qed.

  Definition divided (h : heap) (rs : list request) (f : nat) : Prop := exists r, In r rs /\ divides h r f.

  Lemma divided_dec : forall h rs f, divided h rs f \/ ~ divided h rs f.
  Proof.
    intros h rs f. induction rs as [|r rs [IH|IH]].
    - right. intros (r & [] & _).
    - left. destruct IH as (x & Hx & K). exists x. split; [right|]; auto.
    - destruct (divides_dec h r f) as [K|K]; [left; exists r; split; [left|]; auto|].
      right. intros (x & [<-|Hx] & J); [auto|]. apply IH. exists x. auto.
  Qed.

  Lemma divided_app : forall h rs r f, divided h (rs ++ [r]) f <-> divided h rs f \/ divides h r f.
  Proof.
    intros h rs r f. split.
    - intros (x & Hx & K). apply in_app_or in Hx as [Hx|[<-|[]]]; [left; exists x|right]; auto.
    - intros [(x & Hx & K)|K]; [exists x|exists r]; split; auto; apply in_or_app; [left|right; left]; auto.
  Qed.

  (** One element of the list. *)
  Lemma item_ok : forall G h0 h rs x r, sound h0 -> tells G h0 -> inv h0 h (flat_map asked rs) (divided h0 rs) -> asks G h0 x r ->
    (forall f, at_face r f -> ~ divided h0 rs f) -> new_points h0 (flat_map asked rs ++ asked r) ->
    exists h', refine_item G x h = (Ok tt, h') /\ inv h0 h' (flat_map asked (rs ++ [r])) (divided h0 (rs ++ [r])).
  Proof.
    intros G h0 h rs [t pts] r S0 Te I A Ap Np. destruct A as (n1 & n2 & n3 & kept & Hf & En & Ea & Eb & Ec & Hk & Hr). cbn [fst snd] in *.
    pose proof I as [[R1 R2 R3 R4 R5] S N L Ed]. pose proof S as (T & _). pose proof S0 as (T0 & _).
    set (f := t_back t) in *.
    assert (Ext : flat_map asked (rs ++ [r]) = flat_map asked rs ++ asked r) by (rewrite flat_map_app; cbn; rewrite app_nil_r; auto).
    assert (Idle : asked r = [] -> (forall g, ~ divides h0 r g) -> inv h0 h (flat_map asked (rs ++ [r])) (divided h0 (rs ++ [r]))).
    { intros Ha Hd. rewrite Ext, Ha, app_nil_r. eapply inv_ext; [exact I|]. intros g _. rewrite divided_app. pose proof (Hd g). tauto. }
    unfold refine_item. rewrite (kept_filter _ _ _ _ Hk).
    destruct (t_face_nodes h0 T0 f Hf) as (_ & Nd & In0). rewrite En in Nd, In0.
    (* facts about a face that is still there *)
    assert (Live : ~ divided h0 rs f -> In f (g_faces h) /\ f_nodes h f = [n1; n2; n3] /\
      (forall a, In a [n1; n2; n3] -> n_p h a = n_p h0 a) /\
      (forall a b, In a (f_nodes h f) -> In b (f_nodes h f) -> (same G (n_p h a) (n_p h b) = true <-> a = b))).
    { intros K. split; [apply R3; auto|]. destruct (R4 f Hf K) as (Q1 & _). rewrite Q1, En.
      assert (Ps : forall a, In a [n1; n2; n3] -> n_p h a = n_p h0 a) by (intros a Ha; apply R2; apply In0; auto).
      split; auto. split; auto. intros a b Ha Hb. rewrite (Ps a Ha), (Ps b Hb). apply Te; apply In0; auto. }
    assert (Step : forall h' hit, step_ok h h' (asked r) hit ->
      (forall g, In g (g_faces h0) -> ~ divided h0 rs g -> (hit g <-> divides h0 r g)) ->
      inv h0 h' (flat_map asked (rs ++ [r])) (divided h0 (rs ++ [r]))).
    { intros h' hit (z & P & Pa & S' & N' & Hm & Em & Hg) Hh. rewrite Ext, <- Em.
      eapply inv_ext; [exact (inv_patch h0 h h' _ _ z P S0 I Pa S' N' Hm)|]. intros g Ig. cbv beta.
      rewrite divided_app. rewrite Hg. destruct (divided_dec h0 rs g) as [K|K]; [tauto|]. rewrite (Hh g Ig K). tauto. }
    assert (Same : forall u v g, In g (g_faces h0) -> ~ divided h0 rs g ->
      (In g (g_faces h) /\ In u (f_nodes h g) /\ In v (f_nodes h g) <-> In g (g_faces h0) /\ In u (f_nodes h0 g) /\ In v (f_nodes h0 g))).
    { intros u v g Ig K. rewrite (R3 g Ig). destruct (R4 g Ig K) as (Q1 & _). rewrite Q1. tauto. }
    assert (New : forall p q, asked r = p :: q -> new_point h p).
    { intros p q Ha. rewrite Ha in Np. eapply inv_new; eauto. }
    destruct r as [|g p|g u v p|g u v p q]; cbn [at_face asked divides] in *.
    - (* nothing *)
      exists h. split; [|apply Idle; auto].
      destruct Hr as [->|[Hl|(p & q & -> & Hr)]]; [reflexivity|destruct kept as [|a [|b [|c k]]]; cbn in Hl; try lia; reflexivity|].
      destruct (cls G t p =? 2) eqn:E1; [|reflexivity]. destruct (cls G t q =? 2) eqn:E2; [|reflexivity].
      apply Nat.eqb_eq in E1, E2. destruct Hr as [Hr|[Hr|(u & v & u' & v' & O1 & O2 & Hd)]]; try congruence.
      cbn [andb]. rewrite (side_points G h0 t n1 n2 n3 p u v O1 Ea Eb Ec), (side_points G h0 t n1 n2 n3 q u' v' O2 Ea Eb Ec).
      destruct (side_unique _ _ _ _ _ _ _ _ O1 Nd) as (_ & Iu & Iv). destruct (side_unique _ _ _ _ _ _ _ _ O2 Nd) as (_ & Iu' & Iv').
      destruct (same G (n_p h0 u) (n_p h0 u')) eqn:B1; [|reflexivity]. destruct (same G (n_p h0 v) (n_p h0 v')) eqn:B2; [|reflexivity].
      apply Te in B1, B2; auto. subst. congruence.
    - (* a point inside *)
      destruct Hr as (-> & -> & Hc). apply Nat.eqb_neq in Hc. rewrite Hc.
      destruct (Live (Ap f eq_refl)) as (Ig & _).
      destruct (step_inner h f p S N Ig (New p [] eq_refl)) as (h' & E & St). exists h'. split; [exact E|].
      eapply Step; [exact St|]. intros g _ _. tauto.
    - (* a point on a side *)
      destruct Hr as (-> & -> & Hc & On). apply Nat.eqb_eq in Hc. rewrite Hc.
      destruct (Live (Ap f eq_refl)) as (Ig & Fn & Ps & Sm). rewrite (side_points G h0 t n1 n2 n3 p u v On Ea Eb Ec).
      destruct (side_unique _ _ _ _ _ _ _ _ On Nd) as (D & Iu & Iv). rewrite <- (Ps u Iu), <- (Ps v Iv).
      destruct (edge_found G h f u v T Ig) as (e & Ee & He & Hw); auto; try (rewrite Fn; auto).
      destruct (step_side h f u v e p S N Ig He Hw D (New p [] eq_refl)) as (h' & E & St). exists h'.
      split; [rewrite (bind_run _ _ _ _ _ _ _ Ee), bind_gets; exact E|]. eapply Step; [exact St|]. apply Same.
    - (* two points on a side *)
      destruct Hr as (-> & -> & Hc & Hc' & On & On'). apply Nat.eqb_eq in Hc, Hc'. rewrite Hc, Hc'. cbn [andb].
      destruct (Live (Ap f eq_refl)) as (Ig & Fn & Ps & Sm).
      rewrite (side_points G h0 t n1 n2 n3 p u v On Ea Eb Ec), (side_points G h0 t n1 n2 n3 q u v On' Ea Eb Ec).
      destruct (side_unique _ _ _ _ _ _ _ _ On Nd) as (D & Iu & Iv). rewrite <- (Ps u Iu), <- (Ps v Iv).
      rewrite (proj2 (Sm u u ltac:(rewrite Fn; auto) ltac:(rewrite Fn; auto)) eq_refl).
      rewrite (proj2 (Sm v v ltac:(rewrite Fn; auto) ltac:(rewrite Fn; auto)) eq_refl). cbn [andb].
      destruct (edge_found G h f u v T Ig) as (e & Ee & He & Hw); auto; try (rewrite Fn; auto).
      assert (Nq : new_point h q).
      { eapply (inv_new h0 h _ _ q []); [exact I|auto|]. destruct Np as [Np1 Np2]. split.
        - rewrite map_app in *. cbn [map] in *. apply NoDup_remove_1 in Np1. exact Np1.
        - intros x Hx. apply Np2. apply in_app_or in Hx as [Hx|[<-|[]]]; apply in_or_app; cbn; auto. }
      assert (Npq : rnd p <> rnd q).
      { destruct Np as [Np1 _]. rewrite map_app in Np1. cbn [map] in Np1. apply NoDup_remove_2 in Np1. intros X. apply Np1. rewrite X.
        apply in_or_app. right. left. auto. }
      destruct (step_two h f u v e p q S N Ig He Hw D (New p [q] eq_refl) Nq Npq) as (h' & E & St). exists h'.
      split; [rewrite (bind_run _ _ _ _ _ _ _ Ee); exact E|]. eapply Step; [exact St|]. apply Same.
  Qed.

  Lemma items_ok : forall G h0 l rs, sound h0 -> tells G h0 -> Forall2 (asks G h0) l rs -> forall rs0 h,
    inv h0 h (flat_map asked rs0) (divided h0 rs0) ->
    (forall r f, In r rs -> at_face r f -> ~ divided h0 rs0 f) -> apart_requests h0 rs -> new_points h0 (flat_map asked (rs0 ++ rs)) ->
    exists h', refine G l h = (Ok tt, h') /\ inv h0 h' (flat_map asked (rs0 ++ rs)) (divided h0 (rs0 ++ rs)).
  Proof.
    intros G h0 l rs S0 Te A. induction A as [|x r l rs Ax A IH]; intros rs0 h I Ap Op Np.
    - exists h. split; [reflexivity|]. rewrite app_nil_r. auto.
    - inversion Op as [|? ? Of Or]; subst. rewrite Forall_forall in Of.
      destruct (item_ok G h0 h rs0 x r S0 Te I Ax) as (h1 & E1 & I1).
      + intros f Hf. apply (Ap r); auto. left; auto.
      + rewrite flat_map_app in Np. cbn [flat_map] in Np. destruct Np as [Np1 Np2]. split.
        * rewrite app_assoc, map_app in Np1. apply NoDup_app_inv in Np1. apply Np1.
        * intros p Hp. apply Np2. rewrite app_assoc. apply in_or_app. auto.
      + destruct (IH (rs0 ++ [r]) h1 I1) as (h' & E & I').
        * intros r' f Hr Hf K. apply divided_app in K as [K|K].
          -- apply (Ap r' f) in K; auto. right; auto.
          -- apply (Of r' Hr f Hf K).
        * auto.
        * rewrite <- app_assoc. auto.
        * exists h'. rewrite <- app_assoc in I'. split; [|exact I']. unfold refine in *. cbn [for_each].
          rewrite (bind_run _ _ _ _ _ _ _ E1). exact E.
  Qed.

  Theorem refine_ok : forall G h l rs, sound h -> no_double_faces h -> tells G h -> Forall2 (asks G h) l rs ->
    apart_requests h rs -> new_points h (flat_map asked rs) ->
    exists h', refine G l h = (Ok tt, h') /\ sound h' /\ no_double_faces h' /\
      refined h h' (flat_map asked rs) (fun f => exists r, In r rs /\ divides h r f).
  Proof.
    intros G h l rs S N Te A Op Np. destruct (items_ok G h l rs S Te A [] h) as (h' & E & [R S' N' _ _]); auto.
    - apply (inv_ext h h [] (fun _ => False)); [apply inv_start; auto|]. intros f _. split; [tauto|]. intros (r & [] & _).
    - intros r f _ _ (x & [] & _).
    - exists h'. auto.
  Qed.
End Steps.
