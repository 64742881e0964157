(** Proofs about Grid.Import of the converter. *)

From Coq Require Import ZArith NArith Ascii String Bool Lia List.
From Verif Require Import Py PyLemmas TextLemmas Heap GridSpec MpiSpec FileSpec GridModel GridIO LoadParse StoreSpec StoreProofs RoundTrip
  AnsysSpec AnsysText Import ImportSpec.
Import ListNotations.
Open Scope list_scope.
Open Scope nat_scope.

Lemma prefix_before : forall (c : ascii) sub y a b, ~ In c sub -> sub ++ y = a ++ c :: b -> exists a', a = sub ++ a'.
Proof.
  intros c sub y. induction sub as [|x sub IH]; intros a b Hc E; [exists a; reflexivity|].
  destruct a as [|z a]; cbn in E; injection E as -> E.
  - exfalso. apply Hc. left. reflexivity.
  - destruct (IH a b) as (a' & ->); [intros K; apply Hc; right; auto|auto|]. exists a'. reflexivity.
Qed.

(** A text without the character [c] occurs on one side of it. *)
Lemma occurs_apart : forall (c : ascii) sub a b, ~ In c sub -> occurs sub (a ++ c :: b) -> occurs sub a \/ occurs sub b.
Proof.
  intros c sub a b Hc. induction a as [|z a IH]; intros (x & y & E).
  - destruct x as [|d x].
    + destruct sub as [|s sub]; [left; exists [], []; reflexivity|]. cbn in E. injection E as -> _. exfalso. apply Hc. left. reflexivity.
    + cbn in E. injection E as _ E. right. exists x, y. auto.
  - destruct x as [|d x].
    + cbn [app] in E. destruct (prefix_before c sub y (z :: a) b Hc) as (a' & Ea); [symmetry; exact E|].
      left. exists [], a'. auto.
    + cbn in E. injection E as -> E. destruct IH as [(u & v & ->)|O]; [exists x, y; auto| |auto].
      left. exists (d :: u), v. reflexivity.
Qed.

Lemma rmap_seq : forall B (f : nat -> res B) l k, (forall i x, nth_error l i = Some x -> f (k + i) = Ok x) ->
  rmap f (seq k (length l)) = Ok l.
Proof.
  intros B f l. induction l as [|x l IH]; intros k H; [reflexivity|]. cbn [length seq rmap].
  rewrite <- (Nat.add_0_r k) at 1. rewrite (H 0 x eq_refl). cbn [rbind]. rewrite (IH (S k)); [reflexivity|].
  intros i y E. rewrite Nat.add_succ_comm. apply H. exact E.
Qed.

Lemma py_get_0 : forall A (x : A) l, py_get (x :: l) 0 = Ok x.
Proof. intros. apply (py_get_nat _ (x :: l) 0 x). reflexivity. Qed.
Lemma py_get_1 : forall A (x y : A) l, py_get (x :: y :: l) 1 = Ok y.
Proof. intros. apply (py_get_nat _ (x :: y :: l) 1 y). reflexivity. Qed.
Lemma py_get_2 : forall A (x y z : A) l, py_get (x :: y :: z :: l) 2 = Ok z.
Proof. intros. apply (py_get_nat _ (x :: y :: z :: l) 2 z). reflexivity. Qed.

Section Import.
  Context {F : FloatOps}.

  Lemma import_count_ok : forall k n, ~ In eqsign k -> import_count (k ++ lit "=" ++ nat_str n ++ [nl]) = Ok (Z.of_nat n).
  Proof.
    intros k n Hk. unfold import_count.
    change (lit "=" ++ nat_str n ++ [nl]) with (eqsign :: nat_str n ++ [nl]).
    rewrite split_on_one; auto.
    - rewrite py_get_1. cbn [rbind].
      pose proof (py_int_digits [] (nat_str n) [nl] eq_refl eq_refl (all_digits_N_str _)) as P. cbn [app] in P. rewrite P, nat_str_val. reflexivity.
    - intros K. apply in_app_iff in K. destruct K as [K|[K|[]]]; [apply (nat_no_eq n K)|discriminate K].
  Qed.

  Lemma number_len : forall line vs, number_line line vs -> length (split_ws line) = length vs.
  Proof. intros line vs H. induction H; cbn; auto. Qed.

  Lemma number_at : forall line vs i v, number_line line vs -> nth_error vs i = Some v -> float_at (split_ws line) i = Ok v.
  Proof.
    intros line vs i v H E. unfold float_at. unfold number_line in H.
    destruct (nth_error (split_ws line) i) as [s|] eqn:Es.
    - rewrite (py_get_nat _ _ _ _ Es). cbn [rbind].
      rewrite (Forall2_nth_error _ _ _ _ _ _ _ _ H Es E). reflexivity.
    - apply nth_error_None in Es. rewrite (Forall2_len' _ _ _ _ _ H) in Es.
      assert (i < length vs) by (apply nth_error_Some; congruence). lia.
  Qed.

  Lemma len_ok : forall line vs n, number_line line vs -> n = length vs -> check (len_is (split_ws line) (Z.of_nat n)) = Ok tt.
  Proof. intros line vs n H ->. unfold check, len_is. rewrite (number_len _ _ H), Z.eqb_refl. reflexivity. Qed.

  Lemma import_nodes_ok : forall lx ly lz (ps : list pt),
    number_line lx (map (fun p => let '(x, _, _) := p in x) ps) -> number_line ly (map (fun p => let '(_, y, _) := p in y) ps) ->
    number_line lz (map (fun p => let '(_, _, z) := p in z) ps) ->
    import_nodes (split_ws lx) (split_ws ly) (split_ws lz) (Z.of_nat (length ps)) = Ok ps.
  Proof.
    intros lx ly lz ps Hx Hy Hz. unfold import_nodes. rewrite Nat2Z.id. apply rmap_seq. intros i [[x y] z] E. cbn [plus].
    rewrite (number_at lx _ i x Hx), (number_at ly _ i y Hy), (number_at lz _ i z Hz); [reflexivity|..]; exact (map_nth_error _ _ _ E).
  Qed.

  Lemma import_link : forall pts cs line, conn_line pts cs line ->
    exists a b c, let ns := split_ws line in import_corner (length pts) ns 0 = Ok a /\ import_corner (length pts) ns 1 = Ok b /\
      import_corner (length pts) ns 2 = Ok c /\ [nth_error pts a; nth_error pts b; nth_error pts c] = map Some cs.
  Proof.
    intros pts cs line H. destruct (conn_line_corner pts cs line H) as ([[a b] c] & (sa & sb & sc & ka & kb & kc & E & Ea & Eb & Ec & Ia & Ib & Ic) & P).
    exists a, b, c. cbn zeta. rewrite E. unfold import_corner. rewrite py_get_0, py_get_1, py_get_2. cbn [rbind].
    rewrite Ea, Eb, Ec. cbn [rbind]. rewrite Ia, Ib, Ic. auto.
  Qed.

  Lemma import_faces_ok : forall h pts lh lb l7 l8 l9 all fs conn done rest,
    all = done ++ fs ->
    (forall k l, In (k, l) [("HTC", lh); ("Beta", lb); ("TauX", l7); ("TauY", l8); ("TauZ", l9)]%string ->
       number_line l (map (fun f => var_value h f (lit k)) all)) ->
    Forall2 (fun f line => conn_line pts (map (n_p h) (f_nodes h f)) line) fs conn ->
    exists ifs, import_faces (length pts) (split_ws lh) (split_ws lb) (split_ws l7) (split_ws l8) (split_ws l9) (seq (length done) (length fs)) (conn ++ rest) = Ok (ifs, rest) /\
      Forall2 (fun f fc => (let '(a, b, c) := if_nodes fc in [nth_error pts a; nth_error pts b; nth_error pts c]) = map (fun n => Some (n_p h n)) (f_nodes h f) /\
        [if_htc fc; if_beta fc; if_taux fc; if_tauy fc; if_tauz fc] = map (fun k => var_value h f (lit k)) ["HTC"; "Beta"; "TauX"; "TauY"; "TauZ"]%string) fs ifs.
  Proof.
    intros h pts lh lb l7 l8 l9 all fs. induction fs as [|f fs IH]; intros conn done rest E N C; inversion C as [|? line ? conn' Hl C' Ef Ec]; subst; clear C.
    - exists []. split; [reflexivity|constructor].
    - destruct (IH conn' (done ++ [f]) rest) as (ifs & E1 & P1); [rewrite <- app_assoc; reflexivity|exact N|exact C'|].
      rewrite app_length in E1. cbn [length] in E1. rewrite Nat.add_1_r in E1.
      destruct (import_link _ _ _ Hl) as (a & b & c & Ea & Eb & Ec & P).
      assert (V : forall k l, In (k, l) [("HTC", lh); ("Beta", lb); ("TauX", l7); ("TauY", l8); ("TauZ", l9)]%string ->
        float_at (split_ws l) (length done) = Ok (var_value h f (lit k))).
      { intros k l I. apply (number_at _ _ _ _ (N k l I)). rewrite nth_error_map, nth_error_app2, Nat.sub_diag by lia. reflexivity. }
      exists (mkIFace (a, b, c) (var_value h f (lit "HTC")) (var_value h f (lit "Beta")) (var_value h f (lit "TauX")) (var_value h f (lit "TauY")) (var_value h f (lit "TauZ")) :: ifs).
      split.
      + cbn [length seq import_faces app readline]. rewrite Ea, Eb, Ec. cbn [rbind].
        rewrite (V "HTC"%string lh), (V "Beta"%string lb), (V "TauX"%string l7), (V "TauY"%string l8), (V "TauZ"%string l9) by (cbn; auto 6).
        cbn [rbind]. rewrite E1. reflexivity.
      + constructor; [|exact P1]. cbn [if_nodes if_htc if_beta if_taux if_tauy if_tauz]. split; [|reflexivity].
        rewrite P, map_map. reflexivity.
  Qed.

  (** The line of a zone. *)
  Lemma zone_title : forall name, plain_name name -> title_of (lit "ZONE T=""" ++ name ++ lit """" ++ [nl]) = Ok name.
  Proof.
    intros name Hn. unfold title_of.
    change (lit "ZONE T=""" ++ name ++ lit """" ++ [nl]) with (lit "ZONE T" ++ eqsign :: (lit """" ++ name ++ lit """" ++ [nl])).
    rewrite split_on_one.
    - rewrite py_get_1. cbn [rbind]. f_equal. apply (py_slice_inner _ (lit """") name (lit """" ++ [nl])); cbn; auto; lia.
    - apply lit_no_eq. reflexivity.
    - repeat apply no_eq_app; try (apply lit_no_eq; reflexivity). apply name_no_eq. auto.
  Qed.

  Lemma zone_word : forall name w, ~ occurs w name -> w <> [] -> ~ In dquote w -> ~ occurs w (lit "ZONE T=") -> ~ occurs w [nl] ->
    contains w (lit "ZONE T=""" ++ name ++ lit """" ++ [nl]) = false.
  Proof.
    intros name w Hn Hw Hq Hz Hl. apply contains_not. intros O.
    change (lit "ZONE T=""" ++ name ++ lit """" ++ [nl]) with (lit "ZONE T=" ++ dquote :: name ++ dquote :: [nl]) in O.
    apply occurs_apart in O; auto. destruct O as [O|O]; [auto|]. apply occurs_apart in O; auto. destruct O as [O|O]; auto.
  Qed.

  Lemma zone_here : forall s, contains (lit "ZONE T=") (lit "ZONE T=" ++ s) = true.
  Proof. reflexivity. Qed.

  (** One zone. *)
  Lemma import_zone_ok : forall h z ls, plain_name (z_name h z) -> zone_lines h eight z ls ->
    exists l ls', ls = l :: ls' /\ l = lit "ZONE T=""" ++ z_name h z ++ lit """" ++ [nl] /\
      forall rest, exists iz, import_zone l (ls' ++ rest) = Ok (iz, rest) /\ imported h z iz.
  Proof.
    intros h z ls Hn (cx & cy & cz & data & conn & -> & Hx & Hy & Hz & Hd & Hc).
    do 2 eexists. split; [reflexivity|]. split; [reflexivity|]. intros rest.
    unfold eight in Hd. cbn [map] in Hd.
    repeat match goal with H : Forall2 _ (_ :: _) _ |- _ => inversion H; subst; clear H | H : Forall2 _ [] _ |- _ => inversion H; subst; clear H end.
    match goal with |- context [[?d1; ?d2; ?d3; ?d4; ?d5; ?d6; ?d7; ?d8] ++ conn] =>
      set (L1 := d1); set (L2 := d2); set (L3 := d3); set (lh := d4); set (lb := d5); set (l7 := d6); set (l8 := d7); set (l9 := d8) end.
    set (pts := map (n_p h) (z_nodes h z)) in *.
    destruct (import_faces_ok h pts lh lb l7 l8 l9 (z_faces h z) (z_faces h z) conn [] rest eq_refl) as (ifs & Ei & Pi).
    { intros k l I. cbn [In] in I. repeat destruct I as [I|I]; try injection I as <- <-; try assumption. destruct I. }
    { exact Hc. }
    exists (mkIZone (z_name h z) pts ifs). split; [|split; [reflexivity|split; [reflexivity|exact Pi]]].
    unfold import_zone. cbn [app]. rewrite zone_title by auto. cbn [rbind readline fst snd].
    change (lit "NODES=" ++ nat_str (length (z_nodes h z)) ++ [nl]) with (lit "NODES" ++ lit "=" ++ nat_str (length (z_nodes h z)) ++ [nl]).
    rewrite import_count_ok by (apply lit_no_eq; reflexivity). cbn [rbind].
    change (lit "ELEMENTS=" ++ nat_str (length (z_faces h z)) ++ [nl]) with (lit "ELEMENTS" ++ lit "=" ++ nat_str (length (z_faces h z)) ++ [nl]).
    rewrite import_count_ok by (apply lit_no_eq; reflexivity). cbn [rbind].
    rewrite (len_ok cx _ _ Hx), (len_ok cy _ _ Hy), (len_ok cz _ _ Hz) by (rewrite map_length; reflexivity). cbn [rbind].
    replace (import_nodes (split_ws cx) (split_ws cy) (split_ws cz) (Z.of_nat (length (z_nodes h z)))) with (Ok pts).
    2:{ symmetry. replace (length (z_nodes h z)) with (length pts) by (apply map_length). apply import_nodes_ok; unfold pts; rewrite map_map; assumption. }
    cbn [rbind].
    repeat match goal with |- context [check (len_is (split_ws ?l) _)] =>
      erewrite (len_ok l); [cbn [rbind]|eassumption|rewrite map_length; reflexivity] end.
    rewrite Nat2Z.id. cbn [length] in Ei. rewrite Ei. reflexivity.
  Qed.

  Lemma loop_more : forall k ls zs, import_loop k ls = Ok zs -> forall k', k <= k' -> import_loop k' ls = Ok zs.
  Proof.
    intros k. induction k as [|k IH]; intros ls zs E k' L; [discriminate|]. destruct k' as [|k']; [lia|]. cbn [import_loop] in *.
    destruct ls as [|l ls]; [auto|].
    destruct (contains (lit "EXPORT_MODE") l); [apply IH; auto; lia|].
    destruct (contains (lit "TITLE") l); [apply IH; auto; lia|].
    destruct (contains (lit "VARIABLES") l); [apply IH; auto; lia|].
    destruct (contains (lit "ZONE T=") l); [|apply IH; auto; lia].
    destruct (import_zone l ls) as [[iz r]|e]; [|discriminate]. cbn [rbind fst snd] in *.
    destruct (import_loop k r) as [zs'|e] eqn:Er; [|discriminate]. rewrite (IH r zs' Er k') by lia. exact E.
  Qed.

  Lemma import_blocks : forall h zs blocks, (forall z, In z zs -> plain_name (z_name h z) /\ quiet (z_name h z)) ->
    Forall2 (zone_lines h eight) zs blocks ->
    exists izs, import_loop (S (length (concat blocks))) (concat blocks) = Ok izs /\ Forall2 (imported h) zs izs.
  Proof.
    intros h zs blocks Hn H. induction H as [|z ls zs blocks Hz H IH]; [exists []; split; [reflexivity|constructor]|].
    destruct IH as (izs & E & P); [intros; apply Hn; right; auto|]. destruct (Hn z (or_introl eq_refl)) as [Hp Hq].
    destruct (import_zone_ok h z ls Hp Hz) as (l & ls' & -> & El & Hi). destruct (Hi (concat blocks)) as (iz & Ei & Pi).
    exists (iz :: izs). split; [|constructor; auto]. cbn [concat app length].
    assert (Hm : S (length (concat blocks)) <= S (length (ls' ++ concat blocks))) by (rewrite app_length; lia).
    set (m := S (length (ls' ++ concat blocks))) in *. clearbody m. cbn [import_loop].
    assert (W : forall w, In w ["EXPORT_MODE"; "TITLE"; "VARIABLES"]%string -> contains (lit w) l = false).
    { intros w I. rewrite El. apply zone_word; [apply Hq; exact I|..]; cbn [In] in I;
        repeat destruct I as [<-|I]; try discriminate; try (apply lit_no_eq; reflexivity); try (apply contains_not; reflexivity); destruct I. }
    rewrite !W by (cbn; auto).
    replace (contains (lit "ZONE T=") l) with true.
    2:{ rewrite El. symmetry. exact (zone_here (dquote :: z_name h z ++ lit """" ++ [nl])). }
    rewrite Ei. cbn [rbind fst snd]. rewrite (loop_more _ _ _ E) by exact Hm. reflexivity.
  Qed.

  (** Import of a stored file. *)
  Theorem import_stored : forall h, faithful_numbers -> grid_ok h -> zone_lists_ok h -> numbered h -> writable h ->
    grid_vars h = eight -> (forall z, In z (g_zones h) -> quiet (z_name h z)) ->
    exists text izs, store h = Ok text /\ import_grid text = Ok izs /\ Forall2 (imported h) (g_zones h) izs.
  Proof.
    intros h Hnum Hok Hl Hnb Hw Hv Hq. destruct (store_ok h Hnum Hok Hl Hnb Hw) as (text & blocks & E & El & Hb).
    destruct Hw as (_ & _ & Hzn & _). rewrite Hv in Hb, El.
    destruct (import_blocks h (g_zones h) blocks) as (izs & Ei & Pi); [intros z Hz; split; auto|exact Hb|].
    exists text, izs. split; [exact E|]. split; [|exact Pi]. unfold import_grid. rewrite El. unfold head_lines. cbn [app length].
    set (n := length (concat blocks)) in *. clearbody n.
    cbn [import_loop].
    change (contains (lit "EXPORT_MODE") (lit "# crys-gsu" ++ [nl])) with false.
    change (contains (lit "TITLE") (lit "# crys-gsu" ++ [nl])) with false.
    change (contains (lit "VARIABLES") (lit "# crys-gsu" ++ [nl])) with false.
    change (contains (lit "ZONE T=") (lit "# crys-gsu" ++ [nl])) with false. cbv iota.
    assert (T : forall s, contains (lit "TITLE") (lit "TITLE=""" ++ s) = true) by reflexivity. rewrite T.
    assert (V : forall s, contains (lit "VARIABLES") (lit "VARIABLES=" ++ s) = true) by reflexivity. rewrite V.
    assert (S1 : forall (b : bool) (x : res (list izone)), (if b then x else x) = x) by (intros []; reflexivity). rewrite !S1.
    exact Ei.
  Qed.
End Import.
