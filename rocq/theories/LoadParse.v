(** What load reads: a file is accepted by the loop of load exactly if it is
    well-formed, and then the loop builds the zones the file describes. *)

From Coq Require Import ZArith NArith Ascii String Bool Lia List.
From Verif Require Import Py PyLemmas Heap HeapLemmas Frames GridModel Mpi GridIO FileSpec.
Import ListNotations.
Open Scope list_scope.
Open Scope nat_scope.

(* ------------------------------------------------------------------ *)
(** * Lists *)

Lemma list_of : forall A (P : nat -> A -> Prop) n,
  (forall i, i < n -> exists a, P i a) ->
  exists l, length l = n /\ forall i a, nth_error l i = Some a -> P i a.
Proof.
  intros A P n. induction n as [|n IH]; intros H.
  - exists []. split; auto. intros [|i] a E; discriminate.
  - destruct IH as (l & El & Hl); [intros; apply H; lia|].
    destruct (H n) as (a & Ha); [lia|].
    exists (l ++ [a]). split; [rewrite app_length; cbn; lia|].
    intros i b E. destruct (Nat.lt_ge_cases i (length l)).
    + rewrite nth_error_app1 in E by lia. auto.
    + rewrite nth_error_app2 in E by lia. destruct (i - length l) as [|k] eqn:Ek.
      * cbn in E. injection E as <-. replace i with n by lia. auto.
      * destruct k; discriminate.
Qed.

Lemma py_get_last : forall A (l : list A) (d : A), l <> [] -> py_get l (-1) = Ok (last l d).
Proof.
  intros A l d H. destruct (exists_last H) as (a & x & ->). rewrite last_last.
  unfold py_get, py_index. rewrite app_length. cbn [length].
  destruct (0 <=? -1)%Z eqn:E; [lia|].
  destruct (Z.leb_spec 0 (Z.of_nat (length a + 1) + -1)); [|lia].
  replace (Z.to_nat (Z.of_nat (length a + 1) + -1)) with (length a) by lia.
  rewrite nth_error_app2, Nat.sub_diag by lia. reflexivity.
Qed.

Lemma py_get_inv : forall A (l : list A) i x, py_get l i = Ok x ->
  exists k, py_index (length l) i = Some k /\ nth_error l k = Some x.
Proof.
  intros A l i x H. unfold py_get in H. destruct (py_index (length l) i) as [k|]; [|discriminate].
  exists k. split; auto. destruct (nth_error l k); inv H. auto.
Qed.

Lemma py_get_at : forall A (l : list A) i k x, py_index (length l) i = Some k ->
  nth_error l k = Some x -> py_get l i = Ok x.
Proof. intros A l i k x H1 H2. unfold py_get. rewrite H1, H2. auto. Qed.

Lemma py_get_nat_inv : forall A (l : list A) i x, py_get l (Z.of_nat i) = Ok x -> nth_error l i = Some x.
Proof.
  intros A l i x H. apply py_get_inv in H as (k & E & H). unfold py_index in E.
  destruct (Z.leb_spec 0 (Z.of_nat i)); [|lia].
  destruct (Z.of_nat i <? Z.of_nat (length l))%Z; inv E. rewrite Nat2Z.id in H. auto.
Qed.

Lemma split_on_nonempty : forall c s, split_on c s <> [].
Proof.
  induction s as [|x s IH]; cbn; [discriminate|].
  destruct (Ascii.eqb x c); [discriminate|]. destruct (split_on c s); discriminate.
Qed.

Lemma py_to_last : forall (line s : str), s <> [] -> (py_to line (-1) = s <-> text_line s line).
Proof.
  intros line s Hs. split.
  - intros H. unfold text_line. destruct line as [|x l].
    + cbn in H. congruence.
    + destruct (@exists_last _ (x :: l) ltac:(discriminate)) as (a & c & E). rewrite E in *.
      rewrite (py_to_app _ a [c]) in H; [|cbn; lia|reflexivity]. subst. eauto.
  - intros (c & ->). apply py_to_app; [cbn; lia|reflexivity].
Qed.

Lemma readline_hd : forall ls, readline ls = (hd [] ls, tl ls).
Proof. intros [|l ls]; reflexivity. Qed.

Lemma take_lines_length : forall k ls l r, take_lines k ls = (l, r) -> length l = k /\ length r <= length ls.
Proof.
  induction k as [|k IH]; cbn [take_lines]; intros ls l r H.
  - inv H. auto.
  - destruct (take_lines k (tl ls)) as [l' r'] eqn:E. inv H. apply IH in E as [E1 E2].
    split; [cbn; lia|]. destruct ls; cbn in *; lia.
Qed.

Section Parse.
  Context {F : FloatOps}.

  Lemma floats_spec : forall line vs, floats line = Ok vs <-> number_line line vs.
  Proof.
    intros line vs. unfold floats, number_line. rewrite rmap_ok_Forall2.
    split; intros H; induction H; constructor; auto.
    - destruct (prs x); inv H. auto.
    - rewrite H. auto.
  Qed.

  Lemma read_rows_spec : forall k ls rows rest,
    read_rows k ls = Ok (rows, rest) <->
    exists l, take_lines k ls = (l, rest) /\ Forall2 number_line l rows.
  Proof.
    induction k as [|k IH]; intros ls rows rest; cbn [read_rows take_lines].
    - split.
      + intros H. inv H. exists []. auto.
      + intros (l & E & H). inv E. inv H. auto.
    - rewrite readline_hd. split.
      + intros H. apply rbind_ok in H as (v & Ev & H). apply rbind_ok in H as ([rs r] & Er & H).
        cbn in H. inv H. apply IH in Er as (l & El & Hl). rewrite El.
        exists (hd [] ls :: l). split; auto. constructor; auto. apply floats_spec; auto.
      + intros (l & E & H). destruct (take_lines k (tl ls)) as [l' r'] eqn:El. inv E. inv H.
        apply floats_spec in H2. rewrite H2. cbn [rbind].
        assert (E2 : read_rows k (tl ls) = Ok (l'0, rest)) by (apply IH; eauto).
        rewrite E2. reflexivity.
  Qed.

  Lemma after_eq_spec : forall line, after_eq line = Ok (last (split_on eqsign line) []).
  Proof. intros. unfold after_eq. apply py_get_last, split_on_nonempty. Qed.

  (* ---------------------------------------------------------------- *)
  (** ** What the loop builds *)

  Definition build_node (z : nat) (merge : bool) (p : pt) : M unit :=
    n <- new_node p ;; n' <- add_node n merge ;; zone_add_node z n'.

  Definition build_face (z : nat) (vars : list str) (row : list val) : M unit :=
    f <- new_face (dict_of str_dec (combine vars row)) ;; add_face f None ;;; zone_add_face z f.

  Fixpoint build_conn (z : nat) (i : nat) (conn : list (nat * nat * nat)) : M unit :=
    match conn with
    | [] => ret tt
    | (a, b, c) :: r =>
        fs <- gets (fun h => z_faces h z) ;;
        face <- lift (py_get fs (Z.of_nat i)) ;;
        zn <- gets (fun h => z_nodes h z) ;;
        na <- lift (py_get zn (Z.of_nat a)) ;;
        nb <- lift (py_get zn (Z.of_nat b)) ;;
        nc <- lift (py_get zn (Z.of_nat c)) ;;
        link_node_face na face ;;; link_node_face nb face ;;; link_node_face nc face ;;;
        build_conn z (S i) r
    end.

  Definition build_zone (merge : bool) (zr : zone_rec) : M unit :=
    z <- new_zone (zr_name zr) ;;
    append_zone z ;;;
    for_each (zr_pts zr) (build_node z merge) ;;;
    for_each (zr_data zr) (build_face z (zr_vars zr)) ;;;
    build_conn z 0 (zr_conn zr).

  Definition build_event (merge : bool) (e : event) : M unit :=
    match e with
    | ETitle s => modify (fun h => set_g_name h s)
    | EZone zr => build_zone merge zr
    end.

  (* Order of unfolding only (keeps proof checking fast). *)
  #[local] Strategy expand [build_node build_face build_conn build_zone build_event
                            load_zone load_nodes load_faces load_conn for_each load_loop].

  (* ---------------------------------------------------------------- *)

  Lemma bind_ext : forall A B (m : M A) (k1 k2 : A -> M B) h,
    (forall a h', m h = (Ok a, h') -> k1 a h' = k2 a h') -> bind m k1 h = bind m k2 h.
  Proof. intros. unfold bind. destruct (m h) as [[a|e] h']; auto. Qed.

  Lemma lift_inv : forall A (r : res A) h a h', lift r h = (Ok a, h') -> r = Ok a /\ h = h'.
  Proof. intros A r h a h' H. inversion H. auto. Qed.

  Lemma bind_eq : forall A B (m1 m2 : M A) (k1 k2 : A -> M B) h, m1 h = m2 h ->
    (forall a h', m2 h = (Ok a, h') -> k1 a h' = k2 a h') -> bind m1 k1 h = bind m2 k2 h.
  Proof. intros A B m1 m2 k1 k2 h E H. unfold bind. rewrite E. destruct (m2 h) as [[a|e] h']; auto. Qed.

  Lemma for_each_seq : forall A (l : list A) (b1 : nat -> M unit) (b2 : A -> M unit) o,
    (forall i x h, nth_error l i = Some x -> b1 (o + i) h = b2 x h) ->
    forall h, for_each (seq o (length l)) b1 h = for_each l b2 h.
  Proof.
    induction l as [|x l IH]; intros b1 b2 o H h; [reflexivity|].
    cbn [length seq for_each]. unfold bind. specialize (H 0 x h eq_refl) as H0.
    rewrite Nat.add_0_r in H0. rewrite H0. destruct (b2 x h) as [[[]|e] h']; auto.
    apply IH. intros i y h1 Hi. rewrite <- (H (S i) y h1 Hi). f_equal. lia.
  Qed.

  Lemma for_each_each : forall A (l : list A) (b : A -> M unit) h h',
    for_each l b h = (Ok tt, h') -> forall x, In x l -> exists h1 h2, b x h1 = (Ok tt, h2).
  Proof.
    induction l as [|y l IH]; intros b h h' H x Hx; [destruct Hx|].
    cbn [for_each] in H. apply bind_inv in H as ([] & h1 & E & H).
    destruct Hx as [->|Hx]; eauto.
  Qed.

  Lemma zone_add_node_run : forall z n h h', zone_add_node z n h = (Ok tt, h') ->
    z_nodes h' = upd (z_nodes h) z (z_nodes h z ++ [n]).
  Proof. intros z n h h' H. unfold zone_add_node, modify in H. injection H as <-. reflexivity. Qed.

  Lemma new_zone_run : forall name h z h1, new_zone name h = (Ok z, h1) -> z_nodes h1 z = [].
  Proof. intros name h z h1 H. unfold new_zone in H. injection H as <- <-. apply upd_same. Qed.

  Lemma zone_start : forall name h z h1 h2, new_zone name h = (Ok z, h1) ->
    append_zone z h1 = (Ok tt, h2) -> z_nodes h2 z = [].
  Proof.
    intros name h z h1 h2 H1 H2. apply new_zone_run in H1.
    assert (K : z_nodes h2 = z_nodes h1) by (eapply keeps_run; [|exact H2]; keeps_tac).
    rewrite K. auto.
  Qed.

  (** The node list of the zone grows by one for every node. *)
  Lemma build_node_len : forall z merge p h h', build_node z merge p h = (Ok tt, h') ->
    length (z_nodes h' z) = S (length (z_nodes h z)).
  Proof.
    intros z merge p h h' H. unfold build_node in H.
    apply bind_inv in H as (n & h1 & E1 & H). apply bind_inv in H as (n' & h2 & E2 & H).
    assert (K1 : z_nodes h1 = z_nodes h) by (eapply keeps_run; [|exact E1]; keeps_tac).
    assert (K2 : z_nodes h2 = z_nodes h1) by (eapply keeps_run; [|exact E2]; keeps_tac).
    apply zone_add_node_run in H. rewrite H, upd_same, app_length, K2, K1. cbn. lia.
  Qed.

  Lemma build_nodes_len : forall z merge ps h h', for_each ps (build_node z merge) h = (Ok tt, h') ->
    length (z_nodes h' z) = length ps + length (z_nodes h z).
  Proof.
    induction ps as [|p ps IH]; intros h h' H; cbn [for_each] in H.
    - inv H. auto.
    - apply bind_inv in H as ([] & h1 & E & H). apply IH in H. apply build_node_len in E.
      rewrite H, E. cbn. lia.
  Qed.

  Lemma build_faces_keep : forall z vars rows, keeps z_nodes (for_each rows (build_face z vars)).
  Proof. intros. unfold build_face. keeps_tac. Qed.

  (* ---------------------------------------------------------------- *)
  (** ** Coordinates, values, corners *)

  Lemma load_nodes_build : forall z merge cx cy cz n ps,
    length ps = Z.to_nat n ->
    (forall i x y z, nth_error ps i = Some (x, y, z) ->
       nth_error cx i = Some x /\ nth_error cy i = Some y /\ nth_error cz i = Some z) ->
    forall h, load_nodes z merge [cx; cy; cz] n h = for_each ps (build_node z merge) h.
  Proof.
    intros z merge cx cy cz n ps El H h. unfold load_nodes. rewrite <- El.
    apply for_each_seq. intros i [[x y] zc] h1 Hi. apply H in Hi as (H1 & H2 & H3).
    cbn [Nat.add]. change (py_get [cx; cy; cz] 0) with (Ok cx).
    change (py_get [cx; cy; cz] 1) with (Ok cy). change (py_get [cx; cy; cz] 2) with (Ok cz).
    cbn [rbind]. rewrite (py_get_nat _ _ _ _ H1), (py_get_nat _ _ _ _ H2), (py_get_nat _ _ _ _ H3).
    rewrite !bind_lift_ok. reflexivity.
  Qed.

  Lemma load_nodes_inv : forall z merge cx cy cz n h h',
    load_nodes z merge [cx; cy; cz] n h = (Ok tt, h') ->
    exists ps, length ps = Z.to_nat n /\
    forall i x y z, nth_error ps i = Some (x, y, z) ->
       nth_error cx i = Some x /\ nth_error cy i = Some y /\ nth_error cz i = Some z.
  Proof.
    intros z merge cx cy cz n h h' H. unfold load_nodes in H.
    destruct (list_of pt (fun i p => match p with (x, y, z) =>
      nth_error cx i = Some x /\ nth_error cy i = Some y /\ nth_error cz i = Some z end) (Z.to_nat n))
      as (ps & El & Hps).
    - intros i Hi. destruct (for_each_each _ _ _ _ _ H i) as (h1 & h2 & E); [apply in_seq; lia|].
      change (py_get [cx; cy; cz] 0) with (Ok cx) in E.
      change (py_get [cx; cy; cz] 1) with (Ok cy) in E. change (py_get [cx; cy; cz] 2) with (Ok cz) in E.
      cbn [rbind] in E.
      apply bind_inv in E as (x & h3 & E1 & E). apply bind_inv in E as (y & h4 & E2 & E).
      apply bind_inv in E as (w & h5 & E3 & E).
      unfold lift in E1, E2, E3. injection E1 as E1 _. injection E2 as E2 _. injection E3 as E3 _.
      exists (x, y, w). auto using py_get_nat_inv.
    - exists ps. split; auto. intros i x y w Hi. apply (Hps _ _ Hi).
  Qed.

  Lemma load_faces_build : forall z vars d m rows,
    length rows = Z.to_nat m ->
    (forall i row, nth_error rows i = Some row -> Forall2 (fun l v => nth_error l i = Some v) d row) ->
    forall h, load_faces z vars d m h = for_each rows (build_face z vars) h.
  Proof.
    intros z vars d m rows El H h. unfold load_faces. rewrite <- El.
    apply for_each_seq. intros i row h1 Hi. apply H in Hi. cbn [Nat.add].
    assert (E : rmap (fun l : list val => py_get l (Z.of_nat i)) d = Ok row).
    { apply rmap_ok_Forall2. clear - Hi. induction Hi; constructor; auto. apply py_get_nat; auto. }
    rewrite E, bind_lift_ok. reflexivity.
  Qed.

  Lemma load_faces_inv : forall z vars d m h h',
    load_faces z vars d m h = (Ok tt, h') ->
    exists rows, length rows = Z.to_nat m /\
    forall i row, nth_error rows i = Some row -> Forall2 (fun l v => nth_error l i = Some v) d row.
  Proof.
    intros z vars d m h h' H. unfold load_faces in H. apply list_of.
    intros i Hi. destruct (for_each_each _ _ _ _ _ H i) as (h1 & h2 & E); [apply in_seq; lia|].
    apply bind_inv in E as (vs & h3 & E1 & E). unfold lift in E1. injection E1 as E1 _.
    exists vs. apply rmap_ok_Forall2 in E1. clear - E1. induction E1; constructor; auto.
    apply py_get_nat_inv; auto.
  Qed.

  Lemma link3_keep : forall a b c f, keeps z_nodes (link_node_face a f ;;; link_node_face b f ;;; link_node_face c f).
  Proof. intros. keeps_tac. Qed.

  Lemma load_conn_build : forall z conn i ls crows rest h n,
    take_lines (length conn) ls = (crows, rest) ->
    Forall2 (corner_line n) crows conn ->
    length (z_nodes h z) = n ->
    load_conn z (seq i (length conn)) ls h = (build_conn z i conn ;;; ret rest) h.
  Proof.
    induction conn as [|[[a b] c] conn IH]; intros i ls crows rest h n Et Hf Hn.
    - cbn in Et. injection Et as <- <-. reflexivity.
    - cbn [length take_lines] in Et. destruct (take_lines (length conn) (tl ls)) as [cr r] eqn:Er.
      injection Et as <- <-. inversion Hf as [|x y l l' Hc Hr]; subst.
      cbn [length seq load_conn build_conn]. rewrite readline_hd.
      rewrite !bind_assoc, !bind_gets.
      rewrite !bind_assoc. apply bind_ext. intros face h1 E1. apply lift_inv in E1 as [_ <-].
      rewrite !bind_assoc, !bind_gets, !bind_assoc.
      destruct Hc as (sa & sb & sc & ka & kb & kc & Es & P1 & P2 & P3 & I1 & I2 & I3).
      assert (G : forall k j, py_index (length (z_nodes h z)) k = Some j ->
                exists x, py_get (z_nodes h z) k = Ok x /\ py_get (z_nodes h z) (Z.of_nat j) = Ok x).
      { intros k j Hk. assert (Hj : j < length (z_nodes h z)) by (eapply py_index_lt; eauto).
        destruct (nth_error (z_nodes h z) j) as [x|] eqn:Ex; [|apply nth_error_None in Ex; lia].
        exists x. split; [eapply py_get_at; eauto|apply py_get_nat; auto]. }
      destruct (G _ _ I1) as (na & A1 & A2). destruct (G _ _ I2) as (nb & B1 & B2).
      destruct (G _ _ I3) as (nc & C1 & C2).
      assert (Ec : corner_nodes (z_nodes h z) (hd [] ls) = Ok [na; nb; nc]).
      { unfold corner_nodes. rewrite Es. cbn [rmap]. rewrite P1, P2, P3. cbn [rbind].
        rewrite A1, B1, C1. reflexivity. }
      rewrite Ec, A2, B2, C2, !bind_lift_ok, ?bind_assoc. rewrite !bind_lift_ok, ?bind_assoc.
      rewrite !bind_lift_ok, ?bind_assoc.
      apply bind_ext. intros [] h1 E1.
      assert (K1 : z_nodes h1 = z_nodes h) by (eapply keeps_run; [|exact E1]; keeps_tac).
      rewrite ?bind_assoc. apply bind_ext. intros [] h2 E2.
      assert (K2 : z_nodes h2 = z_nodes h1) by (eapply keeps_run; [|exact E2]; keeps_tac).
      rewrite ?bind_assoc. apply bind_ext. intros [] h3 E3.
      assert (K3 : z_nodes h3 = z_nodes h2) by (eapply keeps_run; [|exact E3]; keeps_tac).
      eapply IH; eauto. congruence.
  Qed.

  Lemma corner_nodes_inv : forall zn line a b c, corner_nodes zn line = Ok [a; b; c] ->
    exists t, corner_line (length zn) line t.
  Proof.
    intros zn line a b c H. unfold corner_nodes in H. apply rmap_ok_Forall2 in H.
    inversion H as [|sa ? l1 ? Ha H1 Es]; subst. inversion H1 as [|sb ? l2 ? Hb H2 E2]; subst.
    inversion H2 as [|sc ? l3 ? Hc H3 E3]; subst. inversion H3; subst.
    apply rbind_ok in Ha as (ka & Pa & Ha). apply rbind_ok in Hb as (kb & Pb & Hb).
    apply rbind_ok in Hc as (kc & Pc & Hc).
    apply py_get_inv in Ha as (ia & Ia & _). apply py_get_inv in Hb as (ib & Ib & _).
    apply py_get_inv in Hc as (ic & Ic & _).
    exists (ia, ib, ic). cbn. exists sa, sb, sc, ka, kb, kc. auto 10.
  Qed.

  Lemma load_conn_inv : forall z k i ls rest h h',
    load_conn z (seq i k) ls h = (Ok rest, h') ->
    exists crows conn, take_lines k ls = (crows, rest) /\
      Forall2 (corner_line (length (z_nodes h z))) crows conn.
  Proof.
    induction k as [|k IH]; intros i ls rest h h' H; cbn [seq load_conn take_lines] in *.
    - injection H as <- _. exists [], []. auto.
    - rewrite readline_hd in H. rewrite bind_gets in H. apply bind_inv in H as (face & h1 & E1 & H).
      apply lift_inv in E1 as [_ <-]. rewrite bind_gets in H.
      apply bind_inv in H as (nodes & h1 & E1 & H). apply lift_inv in E1 as [E1 <-].
      destruct nodes as [|a [|b [|c [|]]]]; try (unfold raise in H; discriminate).
      apply bind_inv in H as ([] & h1 & F1 & H). apply bind_inv in H as ([] & h2 & F2 & H).
      apply bind_inv in H as ([] & h3 & F3 & H).
      assert (K1 : z_nodes h1 = z_nodes h) by (eapply keeps_run; [|exact F1]; keeps_tac).
      assert (K2 : z_nodes h2 = z_nodes h1) by (eapply keeps_run; [|exact F2]; keeps_tac).
      assert (K3 : z_nodes h3 = z_nodes h2) by (eapply keeps_run; [|exact F3]; keeps_tac).
      apply IH in H as (crows & conn & -> & Hc). rewrite K3, K2, K1 in Hc.
      apply corner_nodes_inv in E1 as (t & Ht).
      exists (hd [] ls :: crows), (t :: conn). auto.
  Qed.

  (* ---------------------------------------------------------------- *)
  (** ** A zone *)

  Lemma raise_if_ok : forall b h h', raise_if b h = (Ok tt, h') -> b = false /\ h' = h.
  Proof. intros [] h h' H; cbn in H; [discriminate|]. inv H. auto. Qed.

  Lemma bind_raise_if : forall B b (k : unit -> M B) h, b = false -> bind (raise_if b) k h = k tt h.
  Proof. intros. subst. reflexivity. Qed.

  Lemma zone_name_spec : forall l s, zone_name_of l = Ok s <-> s = py_slice (last (split_on eqsign l) []) 1 (-2).
  Proof. intros. unfold zone_name_of. rewrite after_eq_spec. cbn [rbind]. split; [intros H; injection H as <-; auto|intros ->; auto]. Qed.

  Lemma count_spec : forall l, count_of l = py_int (py_to (last (split_on eqsign l) []) (-1)).
  Proof. intros. unfold count_of. rewrite after_eq_spec. reflexivity. Qed.

  Lemma lit_ne : forall c s, lit (String c s) <> [].
  Proof. intros. cbn. discriminate. Qed.

  Lemma varlocation_ne : forall n, varlocation n <> [].
  Proof. intros. unfold varlocation. cbn. discriminate. Qed.

  Lemma text_check : forall s line, s <> [] -> (negb (str_eqb s (py_to line (-1))) = false <-> text_line s line).
  Proof.
    intros s line H. rewrite <- py_to_last by auto. rewrite negb_false_iff, str_eqb_eq. split; congruence.
  Qed.

  Lemma Forall2_3 : forall A B (R : A -> B -> Prop) a b c l, Forall2 R [a; b; c] l ->
    exists x y z, l = [x; y; z] /\ R a x /\ R b y /\ R c z.
  Proof.
    intros A B R a b c l H. inversion H as [|? x ? l1 H1 H2]; subst. inversion H2 as [|? y ? l2 H3 H4]; subst.
    inversion H4 as [|? z ? l3 H5 H6]; subst. inversion H6; subst. eauto 10.
  Qed.

  Lemma load_zone_build : forall merge vars line ls zr rest h,
    zone_line line (zr_name zr) -> zone_block vars ls zr rest ->
    load_zone merge vars line ls h = (build_zone merge zr ;;; ret rest) h.
  Proof.
    intros merge vars line ls zr rest h (_ & _ & _ & _ & s & Hs & En) Hb.
    destruct Hb as (l1 & l2 & l3 & l4 & l5 & body & n & m & lx & ly & lz & cx & cy & cz & body2 &
      drows & d & body3 & crows & -> & (C1 & s1 & S1 & N1) & (C2 & s2 & S2 & N2) & T3 & T4 & T5 & Ev &
      Tk & Hx & Hy & Hz & Lp & Hp & Td & Hd & Ld & Hrow & Tc & Hc).
    unfold load_zone, build_zone.
    assert (E0 : zone_name_of line = Ok (zr_name zr)) by (apply zone_name_spec; rewrite <- Hs; auto).
    rewrite E0, bind_lift_ok. rewrite !bind_assoc. apply bind_ext. intros z h1 Ez.
    rewrite !bind_assoc. apply bind_ext. intros [] h2 E2.
    cbn [readline].
    rewrite bind_raise_if by (rewrite C1; reflexivity).
    rewrite bind_raise_if by (rewrite C2; reflexivity).
    rewrite bind_raise_if by (apply text_check; auto using lit_ne).
    rewrite bind_raise_if by (apply text_check; auto using lit_ne).
    rewrite bind_raise_if by (apply text_check; auto using varlocation_ne).
    rewrite !count_spec. unfold last_part in S1, S2. rewrite <- S1, <- S2, N1, N2, !bind_lift_ok.
    assert (R3 : read_rows 3 body = Ok ([cx; cy; cz], body2)).
    { apply read_rows_spec. exists [lx; ly; lz]. auto. }
    rewrite R3, bind_lift_ok. cbn [fst snd].
    assert (Zn : z_nodes h2 z = []) by (eapply zone_start; eauto).
    rewrite bind_assoc. apply bind_eq.
    { apply load_nodes_build; auto. }
    intros [] h3 E3.
    apply build_nodes_len in E3. rewrite Zn in E3. cbn [length] in E3.
    rewrite <- Ev.
    assert (R4 : read_rows (length (zr_vars zr)) body2 = Ok (d, body3)).
    { apply read_rows_spec. eauto. }
    rewrite R4, bind_lift_ok. cbn [fst snd].
    rewrite bind_assoc. apply bind_eq.
    { apply load_faces_build; auto. }
    intros [] h4 E4.
    assert (K4 : z_nodes h4 = z_nodes h3) by (eapply keeps_run; [apply build_faces_keep|exact E4]).
    assert (Lc : length (zr_conn zr) = Z.to_nat m).
    { apply take_lines_length in Tc as [Tc _]. rewrite <- Tc.
      clear - Hc. induction Hc; cbn; auto. }
    rewrite <- Lc in *. eapply load_conn_build; eauto. rewrite K4. lia.
  Qed.

  Lemma load_zone_inv : forall merge vars line ls rest h h',
    load_zone merge vars line ls h = (Ok rest, h') ->
    exists zr, zr_name zr = py_slice (last (split_on eqsign line) []) 1 (-2) /\ zone_block vars ls zr rest.
  Proof.
    intros merge vars line ls rest h h' H. unfold load_zone in H.
    apply bind_inv in H as (name & h1 & E1 & H). apply lift_inv in E1 as [E1 <-].
    apply zone_name_spec in E1.
    apply bind_inv in H as (z & h1 & Ez & H). apply bind_inv in H as ([] & h2 & E2 & H).
    assert (Zn : z_nodes h2 z = []) by (eapply zone_start; eauto).
    rewrite !readline_hd in H.
    apply bind_inv in H as ([] & h3 & E3 & H). apply raise_if_ok in E3 as [C1 ->].
    apply bind_inv in H as ([] & h3 & E3 & H). apply raise_if_ok in E3 as [C2 ->].
    apply bind_inv in H as ([] & h3 & E3 & H). apply raise_if_ok in E3 as [C3 ->].
    apply bind_inv in H as ([] & h3 & E3 & H). apply raise_if_ok in E3 as [C4 ->].
    apply bind_inv in H as ([] & h3 & E3 & H). apply raise_if_ok in E3 as [C5 ->].
    apply text_check in C3; [|apply lit_ne]. apply text_check in C4; [|apply lit_ne].
    apply text_check in C5; [|apply varlocation_ne].
    rewrite negb_false_iff in C1, C2.
    apply bind_inv in H as (n & h3 & E3 & H). apply lift_inv in E3 as [N1 <-].
    apply bind_inv in H as (m & h3 & E3 & H). apply lift_inv in E3 as [N2 <-].
    apply bind_inv in H as ([cs body2] & h3 & E3 & H). apply lift_inv in E3 as [R3 <-].
    apply bind_inv in H as ([] & h3 & E3 & H).
    apply bind_inv in H as ([d body3] & h4 & E4 & H). apply lift_inv in E4 as [R4 <-].
    apply bind_inv in H as ([] & h4 & E4 & H). cbn [fst snd] in *.
    apply read_rows_spec in R3 as (l3 & Tk & Hk).
    assert (L3 : exists lx ly lz, l3 = [lx; ly; lz]).
    { apply take_lines_length in Tk as [Tk _]. destruct l3 as [|a [|b [|c [|]]]]; cbn in Tk; try discriminate. eauto. }
    destruct L3 as (lx & ly & lz & ->). apply Forall2_3 in Hk as (cx & cy & cz & -> & Hx & Hy & Hz).
    destruct (load_nodes_inv _ _ _ _ _ _ _ _ E3) as (ps & Lp & Hp).
    rewrite (load_nodes_build z merge cx cy cz n ps Lp Hp) in E3. apply build_nodes_len in E3.
    rewrite Zn in E3. cbn [length] in E3.
    apply read_rows_spec in R4 as (drows & Td & Hd).
    destruct (load_faces_inv _ _ _ _ _ _ E4) as (rows & Lr & Hr).
    rewrite (load_faces_build z _ d m rows Lr Hr) in E4.
    assert (K4 : z_nodes h4 = z_nodes h3) by (eapply keeps_run; [apply build_faces_keep|exact E4]).
    apply load_conn_inv in H as (crows & conn & Tc & Hc). rewrite K4, E3, Nat.add_0_r in Hc.
    exists (mkZone name (skipn 3 vars) ps rows conn). split; [auto|].
    assert (Hls : exists l1 l2 l3 l4 l5 body, ls = l1 :: l2 :: l3 :: l4 :: l5 :: body).
    { destruct ls as [|l1 [|l2 [|l4 [|l5 [|l6 body]]]]]; cbn [hd tl] in *; eauto 10; exfalso.
      - discriminate.
      - discriminate.
      - destruct C3 as (c & C3). destruct (lit "DATAPACKING=BLOCK"); discriminate.
      - destruct C4 as (c & C4). destruct (lit "ZONETYPE=FETRIANGLE"); discriminate.
      - destruct C5 as (c & C5). pose proof (varlocation_ne (length vars)).
        destruct (varlocation (length vars)); [congruence|discriminate]. }
    destruct Hls as (l1 & l2 & l4 & l5 & l6 & body & ->). cbn [hd tl] in *.
    rewrite count_spec in N1, N2.
    exists l1, l2, l4, l5, l6, body, n, m, lx, ly, lz, cx, cy, cz, body2, drows, d, body3, crows.
    cbn [zr_name zr_vars zr_pts zr_data zr_conn].
    repeat (split; [solve [auto | unfold count_line, last_part; eauto]|]). auto.
  Qed.

  (* ---------------------------------------------------------------- *)
  (** ** The file *)

  Lemma zone_block_rest : forall vars ls zr rest, zone_block vars ls zr rest -> length rest <= length ls.
  Proof.
    intros vars ls zr rest (l1 & l2 & l3 & l4 & l5 & body & n & m & lx & ly & lz & cx & cy & cz & body2 &
      drows & d & body3 & crows & -> & _ & _ & _ & _ & _ & _ & T1 & _ & _ & _ & _ & _ & T2 & _ & _ & _ & T3 & _).
    apply take_lines_length in T1 as [_ T1]. apply take_lines_length in T2 as [_ T2].
    apply take_lines_length in T3 as [_ T3]. cbn. lia.
  Qed.

  Lemma hash_hd : forall line : str,
    (match line with c :: _ => Ascii.eqb c hash | [] => false end) = true <-> hd_error line = Some hash.
  Proof.
    intros [|c l]; cbn; [split; discriminate|]. rewrite Ascii.eqb_eq. split; congruence.
  Qed.

  Lemma hash_hd_false : forall line : str,
    (match line with c :: _ => Ascii.eqb c hash | [] => false end) = false <-> hd_error line <> Some hash.
  Proof. intros. rewrite <- hash_hd. destruct (match line with [] => false | _ => _ end); split; congruence. Qed.

  Lemma load_loop_build : forall vars ls evs, file_form vars ls evs ->
    forall fuel merge h, length ls < fuel ->
      load_loop fuel merge vars ls h = for_each evs (build_event merge) h.
  Proof.
    intros vars ls evs H. induction H; intros fuel merge h Hf;
      (destruct fuel as [|k]; [cbn in Hf; lia|]); cbn [load_loop].
    - reflexivity.
    - apply hash_hd in H. rewrite H. apply IHfile_form. cbn in Hf. lia.
    - destruct H as (H1 & H2 & s' & H3 & ->). apply hash_hd_false in H1. rewrite H1, H2.
      unfold title_of. change 1%Z with (Z.of_nat 1) at 1. rewrite (py_get_nat _ _ _ _ H3).
      cbn [rbind]. rewrite bind_lift_ok. cbn [for_each build_event]. rewrite !bind_modify.
      apply IHfile_form. cbn in Hf. lia.
    - destruct H as (H1 & H2 & H3 & s' & H4 & ->). apply hash_hd_false in H1. rewrite H1, H2, H3.
      unfold variables_of. rewrite after_eq_spec. unfold last_part in H4. rewrite <- H4.
      cbn [rbind]. rewrite bind_lift_ok. apply IHfile_form. cbn in Hf. lia.
    - pose proof H as (P1 & P2 & P3 & P4 & _). apply hash_hd_false in P1. rewrite P1, P2, P3, P4.
      unfold bind at 1. rewrite (load_zone_build merge vars l ls zr rest h H H0).
      cbn [for_each build_event]. unfold bind.
      destruct (build_zone merge zr h) as [[[]|e] h1]; auto. cbn [ret].
      apply IHfile_form. apply zone_block_rest in H0. cbn in Hf. lia.
  Qed.

  Lemma load_loop_form : forall fuel merge vars ls h h',
    load_loop fuel merge vars ls h = (Ok tt, h') -> exists evs, file_form vars ls evs.
  Proof.
    induction fuel as [|k IH]; intros merge vars ls h h' H; cbn [load_loop] in H; [discriminate|].
    destruct ls as [|line ls1]; [exists []; constructor|].
    destruct (match line with c :: _ => Ascii.eqb c hash | [] => false end) eqn:Eh.
    - apply hash_hd in Eh. apply IH in H as (evs & H). exists evs. apply ff_comment; auto.
    - apply hash_hd_false in Eh. destruct (contains (lit "TITLE=") line) eqn:Et.
      + apply bind_inv in H as (t & h1 & E & H). apply lift_inv in E as [E <-].
        apply bind_inv in H as ([] & h1 & _ & H). apply IH in H as (evs & H).
        exists (ETitle t :: evs). apply ff_title; [|auto]. split; [auto|]. split; [auto|].
        unfold title_of in E. apply rbind_ok in E as (s & E & E'). injection E' as <-.
        change 1%Z with (Z.of_nat 1) in E at 1. apply py_get_nat_inv in E. eauto.
      + destruct (contains (lit "VARIABLES=") line) eqn:Ev.
        * apply bind_inv in H as (vs & h1 & E & H). apply lift_inv in E as [E <-].
          apply IH in H as (evs & H). exists evs. apply ff_vars with (vars' := vs); auto.
          unfold variables_of in E. rewrite after_eq_spec in E. cbn [rbind] in E. injection E as E.
          repeat (split; auto). exists (last (split_on eqsign line) []). split; [reflexivity|auto].
        * destruct (contains (lit "ZONE T=") line) eqn:Ez; [|discriminate].
          apply bind_inv in H as (ls2 & h1 & E & H). apply load_zone_inv in E as (zr & En & Hb).
          apply IH in H as (evs & H). exists (EZone zr :: evs). apply ff_zone with (rest := ls2); auto.
          repeat (split; auto). exists (last (split_on eqsign line) []). split; [reflexivity|auto].
  Qed.

  (** The records of a well-formed file are complete. *)
  Lemma Forall2_len' : forall A B (R : A -> B -> Prop) l l', Forall2 R l l' -> length l = length l'.
  Proof. intros A B R l l' H. induction H; cbn; auto. Qed.

  Lemma zone_block_ok : forall vars ls zr rest, zone_block vars ls zr rest -> zone_rec_ok zr.
  Proof.
    intros vars ls zr rest (l1 & l2 & l3 & l4 & l5 & body & n & m & lx & ly & lz & cx & cy & cz & body2 &
      drows & d & body3 & crows & -> & _ & _ & _ & _ & _ & _ & T1 & _ & _ & _ & _ & _ & T2 & Hd & Ld & Hr & T3 & Hc).
    split; [|split].
    - apply take_lines_length in T3 as [T3 _]. apply Forall2_len' in Hc. lia.
    - intros row Hi. apply In_nth_error in Hi as (i & Hi). apply Hr in Hi. apply Forall2_len' in Hi.
      apply Forall2_len' in Hd. apply take_lines_length in T2 as [T2 _]. lia.
    - intros a b c Hi. clear - Hc Hi. induction Hc as [|x [[a' b'] c'] l l' Hx Hl IH]; [destruct Hi|].
      destruct Hi as [E|Hi]; auto. inv E.
      destruct Hx as (sa & sb & sc & ka & kb & kc & _ & _ & _ & _ & I1 & I2 & I3).
      apply py_index_lt in I1, I2, I3. auto.
  Qed.

  Lemma file_form_ok : forall vars ls evs, file_form vars ls evs ->
    forall zr, In zr (zones_of evs) -> zone_rec_ok zr.
  Proof.
    intros vars ls evs H. induction H; cbn; auto; intros z Hz.
    - destruct Hz.
    - destruct Hz as [<-|Hz]; auto. eapply zone_block_ok; eauto.
  Qed.
End Parse.
