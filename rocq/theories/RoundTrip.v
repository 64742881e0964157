(** The file written by Grid.store, read by Grid.load. *)

From Coq Require Import ZArith NArith Ascii String Bool Lia List Permutation.
From Verif Require Import Py PyLemmas Heap HeapLemmas GridModel GridSpec DecompProofs Mpi MpiSpec MpiProofs
  GridIO FileSpec TextLemmas StoreSpec StoreProofs LoadParse LoadPlace LoadEdges LoadMain.
Import ListNotations.
Open Scope list_scope.
Open Scope nat_scope.

Lemma dict_of_nodup : forall V (ks : list str) (vs : list V), NoDup ks -> length vs = length ks ->
  dict_of str_dec (combine ks vs) = combine ks vs.
Proof.
  intros V ks vs N L. unfold dict_of.
  assert (G : forall l d, NoDup (map fst d ++ map fst l) ->
    fold_left (fun d0 (kv : str * V) => dset str_dec d0 (fst kv) (snd kv)) l d = d ++ l).
  { induction l as [|[k v] l IH]; intros d Nd; cbn [fold_left fst snd]; [rewrite app_nil_r; auto|].
    assert (E : dset str_dec d k v = d ++ [(k, v)]).
    { assert (Hk : ~ In k (map fst d)).
      { intros Hk. cbn in Nd. apply NoDup_remove_2 in Nd. apply Nd. apply in_app_iff. auto. }
      clear - Hk. induction d as [|[k' v'] d IH]; [reflexivity|]. cbn [dset].
      destruct (str_dec k k') as [->|]; [exfalso; apply Hk; simpl; auto|].
      rewrite IH by (intros K; apply Hk; simpl; auto). reflexivity. }
    rewrite E, IH, <- app_assoc; [reflexivity|]. rewrite map_app, <- app_assoc. exact Nd. }
  rewrite G; [reflexivity|]. cbn [map app].
  replace (map fst (combine ks vs)) with ks; auto.
  clear - L. revert vs L. induction ks as [|k ks IH]; intros [|v vs] L; cbn in *; try lia; auto.
  f_equal. apply IH. lia.
Qed.

Lemma keys_combine : forall V (ks : list str) (vs : list V), length vs = length ks -> keys (combine ks vs) = ks.
Proof.
  intros V ks. unfold keys. induction ks as [|k ks IH]; intros [|v vs] L; cbn in *; try lia; auto.
  f_equal. apply IH. lia.
Qed.

Lemma dget_combine : forall V (g : str -> V) ks k, In k ks -> dget str_dec (combine ks (map g ks)) k = Some (g k).
Proof.
  intros V g ks k. induction ks as [|k' ks IH]; intros H; [destruct H|]. cbn.
  destruct (str_dec k k') as [->|Hne]; auto. apply IH. destruct H; congruence.
Qed.

Lemma firstn_snoc : forall A (l : list A) i x, nth_error l i = Some x -> firstn (S i) l = firstn i l ++ [x].
Proof.
  induction l as [|y l IH]; intros [|i] x H; cbn in *; try discriminate; [congruence|]. f_equal. apply IH. auto.
Qed.

Lemma Forall2_nth_error : forall A B (R : A -> B -> Prop) l l' i x y, Forall2 R l l' ->
  nth_error l i = Some x -> nth_error l' i = Some y -> R x y.
Proof.
  intros A B R l l' i x y H. revert i. induction H; intros [|i] E1 E2; cbn in *; try discriminate; [congruence|eauto].
Qed.

Lemma Forall2_in_r : forall A B (R : A -> B -> Prop) l l' y, Forall2 R l l' -> In y l' -> exists x, In x l /\ R x y.
Proof.
  intros A B R l l' y H. induction H; intros Hy; [destruct Hy|]. destruct Hy as [<-|Hy].
  - exists x. simpl. auto.
  - destruct (IHForall2 Hy) as (u & H1 & H2). exists u. simpl. auto.
Qed.

Lemma NoDup_map_in : forall A B (g : A -> B) l, NoDup l ->
  (forall x y, In x l -> In y l -> g x = g y -> x = y) -> NoDup (map g l).
Proof.
  intros A B g l N. induction N as [|x l Hx N IH]; intros Hg; cbn; constructor.
  - intros H. apply in_map_iff in H as (y & E & Hy). apply Hx.
    rewrite (Hg x y); simpl; auto.
  - apply IH. intros; apply Hg; simpl; auto.
Qed.

Section RoundTrip.
  Context {F : FloatOps}.

  (** The zone record describes the zone. *)
  Definition describes (h : heap) (vars : list str) (z : nat) (zr : zone_rec) : Prop :=
    zr_name zr = z_name h z /\ zr_vars zr = vars /\ zr_pts zr = map (n_p h) (z_nodes h z) /\
    zr_data zr = map (fun f => map (var_value h f) vars) (z_faces h z) /\
    Forall2 (fun f t => corners zr t = map Some (map (n_p h) (f_nodes h f))) (z_faces h z) (zr_conn zr).

  Lemma take_lines_app : forall l r, take_lines (length l) (l ++ r) = (l, r).
  Proof. induction l as [|x l IH]; intros r; cbn; [auto|]. rewrite IH. auto. Qed.

  Lemma text_line_nl : forall s, text_line s (s ++ [nl]).
  Proof. intros s. exists nl. reflexivity. Qed.

  Lemma nat_no_eq : forall n, ~ In eqsign (nat_str n).
  Proof.
    intros n H. pose proof (N_str_digits (N.of_nat n)) as K. rewrite forallb_forall in K.
    apply K in H. vm_compute in H. discriminate.
  Qed.

  Lemma lit_no_eq : forall s c, existsb (Ascii.eqb c) s = false -> ~ In c s.
  Proof.
    intros s c H K. assert (existsb (Ascii.eqb c) s = true); [|congruence].
    apply existsb_exists. exists c. split; auto. apply Ascii.eqb_refl.
  Qed.

  Lemma no_eq_app : forall (c : ascii) a b, ~ In c a -> ~ In c b -> ~ In c (a ++ b).
  Proof. intros c a b Ha Hb H. apply in_app_iff in H. tauto. Qed.

  Lemma name_no_eq : forall s, plain_name s -> ~ In eqsign s.
  Proof. intros s H K. destruct (H _ K) as (? & _). congruence. Qed.

  Ltac no_eq := repeat apply no_eq_app; auto using nat_no_eq, name_no_eq;
    try (apply lit_no_eq; reflexivity).

  (** KEY=n *)
  Lemma count_line_ok : forall key n, ~ In eqsign (lit key) ->
    count_line (key ++ "=") (lit key ++ lit "=" ++ nat_str n ++ [nl]) (Z.of_nat n).
  Proof.
    intros key n Hk.
    assert (E : lit (key ++ "=") = lit key ++ [eqsign]).
    { unfold lit. induction key as [|c key IH]; [reflexivity|]. cbn. f_equal. apply IH.
      intros K. apply Hk. right. exact K. }
    assert (Hn : ~ In eqsign (nat_str n ++ [nl])) by no_eq.
    split.
    - rewrite E. change (lit "=" ++ nat_str n ++ [nl]) with (eqsign :: nat_str n ++ [nl]).
      rewrite contains_key by auto. destruct (lit key) as [|c k]; [reflexivity|]. cbn [ends_with].
      rewrite str_eqb_refl. reflexivity.
    - exists (nat_str n ++ [nl]). split.
      + unfold last_part. change (lit "=" ++ nat_str n ++ [nl]) with (eqsign :: nat_str n ++ [nl]).
        rewrite split_on_one by auto. reflexivity.
      + rewrite (py_to_app _ (nat_str n) [nl]) by (cbn; auto). apply py_int_nat_str.
  Qed.

  Lemma conn_line_corner : forall pts cs line, conn_line pts cs line ->
    exists t, corner_line (length pts) line t /\
      let '(a, b, c) := t in [nth_error pts a; nth_error pts b; nth_error pts c] = map Some cs.
  Proof.
    intros pts cs line (a & b & c & -> & Ha & Hb & Hc & E).
    exists (a - 1, b - 1, c - 1). split; [|auto]. cbn.
    exists (nat_str a), (nat_str b), (nat_str c), (Z.of_nat a), (Z.of_nat b), (Z.of_nat c).
    split.
    { pose proof (split_ws_join [nat_str a; nat_str b; nat_str c] [nl]) as K. cbn [join] in K.
      rewrite <- !app_assoc in K. apply K; [|reflexivity].
      intros w Hw. cbn in Hw. destruct Hw as [<-|[<-|[<-|[]]]]; apply word_digits. }
    do 3 (split; [apply py_int_nat_str|]).
    assert (P : forall k, 1 <= k <= length pts -> py_index (length pts) (Z.of_nat k - 1) = Some (k - 1)).
    { intros k Hk. rewrite py_index_nonneg by lia. f_equal. lia. }
    rewrite !P by auto. auto.
  Qed.

  (** The lines written for a zone are a zone block. *)
  Lemma zone_lines_block : forall h vars z ls, plain_name (z_name h z) -> zone_lines h vars z ls ->
    exists zr l ls', ls = l :: ls' /\ describes h vars z zr /\ zone_line l (zr_name zr) /\
      forall rest, zone_block (map lit ["X"; "Y"; "Z"]%string ++ vars) (ls' ++ rest) zr rest.
  Proof.
    intros h vars z ls Hname (cx & cy & cz & data & conn & -> & Hx & Hy & Hw & Hd & Hc).
    set (pts := map (n_p h) (z_nodes h z)) in *.
    assert (Hconn : exists ts, Forall2 (corner_line (length pts)) conn ts /\
      Forall2 (fun f t => let '(a, b, c) := t in
         [nth_error pts a; nth_error pts b; nth_error pts c] = map Some (map (n_p h) (f_nodes h f))) (z_faces h z) ts).
    { clear - Hc. induction Hc as [|f line fs conn H Hc IH]; [exists []; split; constructor|].
      destruct IH as (ts & H1 & H2). destruct (conn_line_corner _ _ _ H) as (t & H3 & H4).
      exists (t :: ts). split; constructor; auto. }
    destruct Hconn as (ts & Hc1 & Hc2).
    exists (mkZone (z_name h z) vars pts (map (fun f => map (var_value h f) vars) (z_faces h z)) ts).
    do 2 eexists. split; [reflexivity|]. split; [|split].
    - unfold describes. cbn [zr_name zr_vars zr_pts zr_data zr_conn]. do 4 (split; [reflexivity|]).
      clear - Hc2. induction Hc2 as [|f [[a b] c] fs ts H Hc IH]; constructor; auto.
    - cbn [zr_name]. unfold zone_line.
      assert (Hn1 : ~ In eqsign (lit "ZONE T")) by no_eq.
      assert (Hn2 : ~ In eqsign (lit """" ++ z_name h z ++ lit """" ++ [nl])) by no_eq.
      change (lit "ZONE T=""" ++ z_name h z ++ lit """" ++ [nl])
        with (lit "ZONE T" ++ eqsign :: (lit """" ++ z_name h z ++ lit """" ++ [nl])).
      split; [discriminate|].
      split; [change (lit "TITLE=") with (lit "TITLE" ++ [eqsign]); rewrite contains_key by (auto; no_eq); reflexivity|].
      split; [change (lit "VARIABLES=") with (lit "VARIABLES" ++ [eqsign]); rewrite contains_key by (auto; no_eq); reflexivity|].
      split; [change (lit "ZONE T=") with (lit "ZONE T" ++ [eqsign]); rewrite contains_key by (auto; no_eq); reflexivity|].
      eexists. split; [unfold last_part; rewrite split_on_one by auto; reflexivity|].
      cbn [last]. symmetry. apply (py_slice_inner _ (lit """") (z_name h z) (lit """" ++ [nl])); cbn; auto; lia.
    - intros rest. unfold zone_block. cbn [zr_name zr_vars zr_pts zr_data zr_conn].
      do 6 eexists. exists (Z.of_nat (length (z_nodes h z))), (Z.of_nat (length (z_faces h z))).
      exists cx, cy, cz. do 3 eexists. exists (data ++ conn ++ rest), data.
      exists (map (fun k => map (fun f => var_value h f k) (z_faces h z)) vars), (conn ++ rest), conn.
      split; [reflexivity|].
      split; [apply (count_line_ok "NODES"); no_eq|].
      split; [apply (count_line_ok "ELEMENTS"); no_eq|].
      split; [apply text_line_nl|]. split; [apply text_line_nl|].
      split.
      { rewrite app_length, map_length. cbn [length plus].
        exists nl. rewrite <- !app_assoc. reflexivity. }
      split; [reflexivity|].
      split; [exact (f_equal (fun r => ([cx; cy; cz], r)) (eq_sym (app_assoc data conn rest)))|].
      split; [exact Hx|]. split; [exact Hy|]. split; [exact Hw|].
      split; [unfold pts; rewrite map_length, Nat2Z.id; reflexivity|].
      split.
      { intros i x y w Hi. unfold pts in Hi. rewrite nth_error_map in Hi.
        destruct (nth_error (z_nodes h z) i) as [n|] eqn:En; [|discriminate]. cbn in Hi. injection Hi as Hi.
        rewrite !nth_error_map, En. cbn. rewrite Hi. auto. }
      split.
      { rewrite (Forall2_len' _ _ _ _ _ Hd). apply take_lines_app. }
      split.
      { clear - Hd. induction Hd; cbn [map]; constructor; auto. }
      split; [rewrite map_length, Nat2Z.id; reflexivity|].
      split.
      { intros i row Hi. rewrite nth_error_map in Hi.
        destruct (nth_error (z_faces h z) i) as [f|] eqn:En; [|discriminate]. cbn in Hi. injection Hi as <-.
        clear - En. induction vars as [|k vars IH]; cbn [map]; constructor; auto.
        rewrite nth_error_map, En. reflexivity. }
      split; [|exact Hc1].
      rewrite Nat2Z.id, (Forall2_len' _ _ _ _ _ Hc). apply take_lines_app.
  Qed.

  Lemma blocks_form : forall h vars zs blocks,
    (forall z, In z zs -> plain_name (z_name h z)) -> Forall2 (zone_lines h vars) zs blocks ->
    exists zrs, Forall2 (describes h vars) zs zrs /\
      file_form (map lit ["X"; "Y"; "Z"]%string ++ vars) (concat blocks) (map EZone zrs).
  Proof.
    intros h vars zs blocks Hn H. induction H as [|z ls zs blocks Hz H IH].
    - exists []. split; constructor.
    - destruct IH as (zrs & H1 & H2); [intros; apply Hn; simpl; auto|].
      destruct (zone_lines_block h vars z ls) as (zr & l & ls' & -> & Hd & Hl & Hb); auto.
      { apply Hn. simpl. auto. }
      exists (zr :: zrs). split; [constructor; auto|]. cbn [concat map app].
      refine (ff_zone _ _ _ zr _ _ Hl (Hb _) H2).
  Qed.

  Lemma head_form : forall h vars ls evs, plain_name (g_name h) -> (forall k, In k vars -> plain_var k) ->
    file_form (map lit ["X"; "Y"; "Z"]%string ++ vars) ls evs ->
    file_form [] (head_lines h vars ++ ls) (ETitle (g_name h) :: evs).
  Proof.
    intros h vars ls evs Hname Hvars H. unfold head_lines. cbn [app].
    apply ff_comment; [reflexivity|].
    apply ff_title.
    { assert (Hn1 : ~ In eqsign (lit "TITLE")) by no_eq.
      assert (Hn2 : ~ In eqsign (lit """" ++ g_name h ++ lit """" ++ [nl])) by no_eq.
      change (lit "TITLE=""" ++ g_name h ++ lit """" ++ [nl])
        with (lit "TITLE" ++ eqsign :: (lit """" ++ g_name h ++ lit """" ++ [nl])).
      split; [discriminate|].
      split; [change (lit "TITLE=") with (lit "TITLE" ++ [eqsign]); rewrite contains_key by auto; reflexivity|].
      eexists. split; [rewrite split_on_one by auto; reflexivity|].
      symmetry. apply (py_slice_inner _ (lit """") (g_name h) (lit """" ++ [nl])); cbn; auto; lia. }
    set (vs := map lit ["X"; "Y"; "Z"]%string ++ vars) in *.
    assert (Hvs : forall k, In k vs -> plain_var k).
    { intros k Hk. apply in_app_iff in Hk as [Hk|Hk]; auto. cbn in Hk.
      destruct Hk as [<-|[<-|[<-|[]]]]; (split; [discriminate|]);
        intros c Hc; cbn in Hc; destruct Hc as [<-|[]]; repeat split; discriminate. }
    apply (ff_vars _ _ _ vs); auto.
    set (s := join (lit ", ") (map (fun k => lit """" ++ k ++ lit """") vs)).
    assert (Hs : ~ In eqsign s).
    { unfold s. clear s H. clearbody vs. clear Hvars. induction vs as [|k vs IH]; [intros []|].
      assert (Hq : ~ In eqsign (lit """" ++ k ++ lit """")).
      { no_eq. intros K. destruct (Hvs k) as [_ Hk]; [simpl; auto|]. apply Hk in K. tauto. }
      destruct vs as [|k2 vs]; [exact Hq|]. cbn [map]. rewrite join_cons. apply no_eq_app; auto.
      apply no_eq_app; [no_eq|]. apply IH. intros; apply Hvs; simpl in *; auto. }
    assert (Hs2 : ~ In eqsign (s ++ [nl])) by (apply no_eq_app; [exact Hs|no_eq]).
    assert (Hn1 : ~ In eqsign (lit "VARIABLES")) by no_eq.
    change (lit "VARIABLES=" ++ s ++ [nl]) with (lit "VARIABLES" ++ eqsign :: (s ++ [nl])).
    split; [discriminate|].
    split; [change (lit "TITLE=") with (lit "TITLE" ++ [eqsign]); rewrite contains_key by (auto; no_eq); reflexivity|].
    split; [change (lit "VARIABLES=") with (lit "VARIABLES" ++ [eqsign]); rewrite contains_key by (auto; no_eq); reflexivity|].
    exists (s ++ [nl]). split; [unfold last_part; rewrite split_on_one by auto; reflexivity|].
    rewrite (py_to_app _ s [nl]) by (cbn; auto). unfold s. rewrite unquote.
    - rewrite <- (app_nil_r (join [sp] vs)), split_ws_join; auto.
      intros w Hw. destruct (Hvs w Hw) as [H1 H2]. split; auto. intros c Hc. apply H2. auto.
    - intros w Hw. destruct (Hvs w Hw) as [H1 H2]. split; intros K; apply H2 in K; tauto.
  Qed.

  (** The written file is well-formed. *)
  Lemma store_form : forall h, faithful_numbers -> grid_ok h -> zone_lists_ok h -> numbered h -> writable h ->
    exists text zrs, store h = Ok text /\ Forall2 (describes h (grid_vars h)) (g_zones h) zrs /\
      file_form [] (file_lines text) (ETitle (g_name h) :: map EZone zrs).
  Proof.
    intros h Hnum Hok Hl Hnb Hw. destruct (store_ok h Hnum Hok Hl Hnb Hw) as (text & blocks & E & El & Hb).
    destruct Hw as (_ & Hgn & Hzn & Hv & _).
    destruct (blocks_form h (grid_vars h) (g_zones h) blocks Hzn Hb) as (zrs & Hd & Hf).
    exists text, zrs. split; [auto|]. split; [auto|]. rewrite El. apply head_form; auto.
  Qed.

  Lemma zones_of_map : forall zrs t, zones_of (ETitle t :: map EZone zrs) = zrs.
  Proof. intros zrs t. cbn. induction zrs as [|z zrs IH]; cbn; [auto|]. f_equal. exact IH. Qed.

  Lemma title_after_map : forall s t zrs, title_after s (ETitle t :: map EZone zrs) = t.
  Proof.
    intros s t zrs. unfold title_after, title_in. cbn [fold_left].
    assert (G : forall o, fold_left (fun t0 e => match e with ETitle s0 => Some s0 | EZone _ => t0 end)
       (map EZone zrs) o = o).
    { induction zrs as [|z zrs IH]; intros o; cbn; auto. }
    rewrite G. reflexivity.
  Qed.

  (** The faces of the file are the faces of the grid. *)
  Lemma describes_faces : forall h vars zs zrs, Forall2 (describes h vars) zs zrs ->
    file_faces zrs = map (fun f => map rnd (map (n_p h) (f_nodes h f))) (flat_map (z_faces h) zs).
  Proof.
    intros h vars zs zrs H. induction H as [|z zr zs zrs Hz H IH]; [reflexivity|].
    unfold file_faces in *. cbn [flat_map]. rewrite map_app, IH. f_equal. clear IH.
    destruct Hz as (_ & _ & _ & _ & Hc). induction Hc as [|f t fs ts Ht Hc IHc]; [reflexivity|].
    cbn [map]. rewrite IHc. f_equal. rewrite Ht. clear.
    induction (map (n_p h) (f_nodes h f)) as [|p l IH]; cbn; [auto|]. f_equal. exact IH.
  Qed.

  Lemma rnd_nodes : forall h f, nodes_merged h -> incl (f_nodes h f) (g_nodes h) ->
    map rnd (map (n_p h) (f_nodes h f)) = map (n_rc h) (f_nodes h f).
  Proof.
    intros h f (_ & _ & Hr) Hi. rewrite map_map. apply map_ext_in. intros n Hn. symmetry. apply Hr. auto.
  Qed.

  Lemma zones_faces_nd : forall h, grid_ok h -> NoDup (flat_map (z_faces h) (g_zones h)).
  Proof.
    intros h [Ht Hz]. apply NoDup_flat_map; [apply (zo_nd h Hz)|apply (zo_faces_nd h Hz)|].
    intros x y f Hx Hy Hfx Hfy. apply (zo_faces h Hz x f Hx) in Hfx as [_ E1].
    apply (zo_faces h Hz y f Hy) in Hfy as [_ E2]. congruence.
  Qed.

  Lemma zones_faces_in : forall h f, grid_ok h -> (In f (flat_map (z_faces h) (g_zones h)) <-> In f (g_faces h)).
  Proof.
    intros h f [Ht Hz]. rewrite in_flat_map. split.
    - intros (z & Hz' & Hf). apply (zo_faces h Hz z f Hz') in Hf. tauto.
    - intros Hf. destruct (zo_cover h Hz f Hf) as (z & H1 & H2). exists z. split; auto.
      apply (zo_faces h Hz z f H1). auto.
  Qed.

  Lemma rc_inj : forall h a b, nodes_merged h -> In a (g_nodes h) -> In b (g_nodes h) ->
    n_rc h a = n_rc h b -> a = b.
  Proof. intros h a b (H & _) Ha Hb E. eapply NoDup_map_inj; eauto. Qed.

  Lemma stored_nodegenerate : forall h vars zrs, grid_ok h -> nodes_merged h ->
    Forall2 (describes h vars) (g_zones h) zrs -> no_degenerate zrs.
  Proof.
    intros h vars zrs Hok Hm Hd t Ht. rewrite (describes_faces _ _ _ _ Hd) in Ht.
    apply in_map_iff in Ht as (f & <- & Hf). apply (zones_faces_in h f Hok) in Hf.
    destruct Hok as [Ht _]. destruct (t_face_nodes h Ht f Hf) as (_ & Hnd & Hi).
    rewrite (rnd_nodes h f Hm Hi). apply NoDup_map_in; auto.
    intros a b Ha Hb E. apply (rc_inj h a b Hm); auto.
  Qed.

  Lemma stored_manifold : forall h vars zrs, grid_ok h -> nodes_merged h ->
    Forall2 (describes h vars) (g_zones h) zrs -> ~ three_share zrs.
  Proof.
    intros h vars zrs Hok Hm Hd (i & j & k & ti & tj & tk & p & q & L1 & L2 & Hpq & E1 & E2 & E3 & HI & HJ & HK).
    rewrite (describes_faces _ _ _ _ Hd) in E1, E2, E3. rewrite nth_error_map in E1, E2, E3.
    pose proof (zones_faces_nd h Hok) as Hnd.
    assert (Hin : forall f, In f (flat_map (z_faces h) (g_zones h)) -> In f (g_faces h)) by (intros; apply zones_faces_in; auto).
    set (fs := flat_map (z_faces h) (g_zones h)) in *.
    destruct (nth_error fs i) as [fi|] eqn:Fi; [|discriminate].
    destruct (nth_error fs j) as [fj|] eqn:Fj; [|discriminate].
    destruct (nth_error fs k) as [fk|] eqn:Fk; [|discriminate].
    cbn in E1, E2, E3. injection E1 as <-. injection E2 as <-. injection E3 as <-.
    assert (Ii : In fi (g_faces h)) by (apply Hin; eapply nth_error_In; eauto).
    assert (Ij : In fj (g_faces h)) by (apply Hin; eapply nth_error_In; eauto).
    assert (Ik : In fk (g_faces h)) by (apply Hin; eapply nth_error_In; eauto).
    assert (Dij : fi <> fj).
    { intros ->. assert (i = j); [|lia]. apply (proj1 (NoDup_nth_error fs) Hnd); [apply nth_error_Some; congruence|congruence]. }
    assert (Dik : fi <> fk).
    { intros ->. assert (i = k); [|lia]. apply (proj1 (NoDup_nth_error fs) Hnd); [apply nth_error_Some; congruence|congruence]. }
    assert (Djk : fj <> fk).
    { intros ->. assert (j = k); [|lia]. apply (proj1 (NoDup_nth_error fs) Hnd); [apply nth_error_Some; congruence|congruence]. }
    destruct Hok as [Ht Hz].
    assert (Hn : forall f r, In f (g_faces h) -> In r (map rnd (map (n_p h) (f_nodes h f))) ->
      exists a, In a (f_nodes h f) /\ In a (g_nodes h) /\ n_rc h a = r).
    { intros f r Hf Hr. destruct (t_face_nodes h Ht f Hf) as (_ & _ & Hi). rewrite (rnd_nodes h f Hm Hi) in Hr.
      apply in_map_iff in Hr as (a & Ea & Ha). exists a. auto. }
    destruct HI as [Pi Qi], HJ as [Pj Qj], HK as [Pk Qk].
    destruct (Hn fi p Ii Pi) as (a & Ai & Ga & Ra). destruct (Hn fi q Ii Qi) as (b & Bi & Gb & Rb).
    destruct (Hn fj p Ij Pj) as (a' & Aj & Ga' & Ra'). destruct (Hn fj q Ij Qj) as (b' & Bj & Gb' & Rb').
    destruct (Hn fk p Ik Pk) as (a2 & Ak & Ga2 & Ra2). destruct (Hn fk q Ik Qk) as (b2 & Bk & Gb2 & Rb2).
    assert (a' = a) by (apply (rc_inj h a' a Hm); congruence). assert (b' = b) by (apply (rc_inj h b' b Hm); congruence).
    assert (a2 = a) by (apply (rc_inj h a2 a Hm); congruence). assert (b2 = b) by (apply (rc_inj h b2 b Hm); congruence).
    subst a' b' a2 b2.
    assert (Dab : a <> b) by congruence.
    assert (He : forall f, In f (g_faces h) -> In a (f_nodes h f) -> In b (f_nodes h f) ->
      exists e, In e (g_edges h) /\ In a (e_nodes h e) /\ In b (e_nodes h e) /\ In f (e_faces h e)).
    { intros f Hf Ha Hb. destruct (t_pairs h Ht f a b Hf Ha Hb Dab) as (e & H1 & H2 & H3).
      assert (He : In e (g_edges h)) by (apply (t_face_edges h Ht f Hf); auto).
      exists e. repeat split; auto. apply (t_ef h Ht e f He Hf). auto. }
    assert (Hu : forall e1 e2, In e1 (g_edges h) -> In e2 (g_edges h) -> In a (e_nodes h e1) -> In b (e_nodes h e1) ->
      In a (e_nodes h e2) -> In b (e_nodes h e2) -> e1 = e2).
    { intros e1 e2 H1 H2 A1 B1 A2 B2. apply (t_uniq h Ht e1 e2 H1 H2).
      destruct (t_edge_nodes h Ht e1 H1) as (L & N & _). intros x Hx.
      destruct (e_nodes h e1) as [|u [|v [|]]]; try discriminate L. cbn in *.
      destruct A1 as [->|[->|[]]], B1 as [->|[->|[]]], Hx as [<-|[<-|[]]]; auto; congruence. }
    destruct (He fi Ii Ai Bi) as (e & G1 & A1 & B1 & F1).
    destruct (He fj Ij Aj Bj) as (e' & G2 & A2 & B2 & F2).
    destruct (He fk Ik Ak Bk) as (e2 & G3 & A3 & B3 & F3).
    assert (e' = e) by (apply Hu; auto). assert (e2 = e) by (apply Hu; auto). subst e' e2.
    destruct (t_edge_faces h Ht e G1) as ([_ L] & N & _).
    assert (K : length [fi; fj; fk] <= length (e_faces h e)).
    { apply NoDup_incl_length.
      - repeat constructor; cbn; intuition congruence.
      - intros x [<-|[<-|[<-|[]]]]; auto. }
    cbn in K. lia.
  Qed.

  (** Store and load. *)
  Theorem round_trip : forall h h0, faithful_numbers -> grid_ok h -> zone_lists_ok h -> numbered h -> nodes_merged h ->
    writable h ->
    exists text h', store h = Ok text /\ load true text h0 = (Ok tt, h') /\
      same_contents (grid_vars h) h h' /\ grid_ok h' /\ zone_lists_ok h' /\ nodes_merged h' /\ numbered_in_order h'.
  Proof.
    intros h h0 Hnum Hok Hl Hnb Hm Hw.
    destruct (store_form h Hnum Hok Hl Hnb Hw) as (text & zrs & Es & Hd & Hf).
    assert (Hdeg : no_degenerate (zones_of (ETitle (g_name h) :: map EZone zrs))).
    { rewrite zones_of_map. apply (stored_nodegenerate h _ zrs Hok Hm Hd). }
    assert (Hthree : ~ three_share (zones_of (ETitle (g_name h) :: map EZone zrs))).
    { rewrite zones_of_map. apply (stored_manifold h _ zrs Hok Hm Hd). }
    destruct (load_accepts true text h0 _ Hf (or_introl eq_refl) Hdeg Hthree) as (h' & El).
    exists text, h'. split; [auto|]. split; [auto|].
    pose proof (load_incidence true text h0 h' _ El Hf (or_introl eq_refl) Hdeg) as Ht'.
    destruct (load_result true text h0 h' _ El Hf) as [L N]. rewrite zones_of_map in L. rewrite title_after_map in N.
    clear Hdeg Hthree Hf El.
    destruct L. specialize (ld_merge eq_refl).
    split; [|split; [split; auto|split; [auto|split; [split; auto|auto]]]].
    destruct Hok as [Ht Hz]. destruct Hm as (Hm1 & Hm2 & Hm3).
    destruct Hw as (_ & _ & _ & _ & Hvnd).
    destruct ld_zones as (Lz & Lf & Hzs).
    assert (Lzr : length zrs = length (g_zones h)) by (symmetry; eapply Forall2_len'; eauto).
    (* positions of the nodes of h' *)
    assert (Hpos : forall n' p, In n' (g_nodes h') -> In p (map (n_p h) (g_nodes h)) -> n_rc h' n' = rnd p -> n_p h' n' = p).
    { intros n' p Hn' Hp Er. rewrite ld_rc in Er by auto.
      assert (Hq : In (n_p h' n') (map (n_p h) (g_nodes h))).
      { assert (Hi : In (n_p h' n') (firsts (all_pts zrs))) by (rewrite <- ld_pts; apply in_map; auto).
        apply firsts_in in Hi as (u & w & Eu & _).
        assert (Hi : In (n_p h' n') (all_pts zrs)) by (rewrite Eu; apply in_app_iff; right; left; auto).
        unfold all_pts in Hi. apply in_flat_map in Hi as (zr & Hzr & Hi).
        destruct (Forall2_in_r _ _ _ _ _ _ Hd Hzr) as (z & Hzin & Hdz). destruct Hdz as (_ & _ & Ep & _).
        rewrite Ep in Hi. apply in_map_iff in Hi as (n & En & Hn). apply in_map_iff. exists n. split; auto.
        destruct (Hl z Hzin) as [Hs _]. apply (sublist_In _ _ _ _ n Hs). auto. }
      apply in_map_iff in Hp as (a & <- & Ha). apply in_map_iff in Hq as (b & Eb & Hb).
      rewrite <- Eb in Er |- *. f_equal. apply (NoDup_map_inj _ _ (n_rc h) (g_nodes h)); auto.
      rewrite !Hm3 by auto. auto. }
    (* faces *)
    assert (Hface : forall i z z' zr k f f', nth_error (g_zones h) i = Some z -> nth_error (g_zones h') i = Some z' ->
      nth_error zrs i = Some zr -> nth_error (z_faces h z) k = Some f -> nth_error (z_faces h' z') k = Some f' ->
      f_zone h' f' = Some z' /\ map (n_p h') (f_nodes h' f') = map (n_p h) (f_nodes h f) /\
      f_data h' f' = combine (grid_vars h) (map (var_value h f) (grid_vars h)) /\ In f' (g_faces h')).
    { intros i z z' zr k f f' Ez Ez' Ezr Ef Ef'.
      destruct (Hzs i z' zr Ez' Ezr) as (_ & _ & Hk). destruct (Hk k f' Ef') as (Hfz & row & t & Er & Et & Edata & Hc).
      destruct (Forall2_nth_error _ _ _ _ _ _ _ _ Hd Ez Ezr) as (E1 & E2 & E3 & E4 & E5).
      pose proof (Forall2_nth_error _ _ _ _ _ _ _ _ E5 Ef Et) as Ec. cbn in Ec.
      rewrite E4, nth_error_map, Ef in Er. cbn in Er. injection Er as <-.
      assert (Hf' : In f' (g_faces h')).
      { rewrite Lf. apply in_flat_map. exists z'. split; eapply nth_error_In; eauto. }
      split; [auto|]. split; [|split; [|auto]].
      - rewrite Ec in Hc.
        assert (Hi : incl (f_nodes h f) (g_nodes h)).
        { assert (Hf : In f (g_faces h)); [|apply (t_face_nodes h Ht f Hf)].
          assert (Hzin : In z (g_zones h)) by (eapply nth_error_In; eauto).
          apply (zo_faces h Hz z f Hzin). eapply nth_error_In; eauto. }
        assert (Hi' : incl (f_nodes h' f') (g_nodes h')) by (apply (t_face_nodes h' Ht' f' Hf')).
        clear - Hc Hi Hi' Hpos. revert Hi Hi' Hc. generalize (f_nodes h f) (f_nodes h' f').
        induction l as [|n l IH]; intros l' Hi Hi' Hc; cbn [map] in Hc; inversion Hc; subst; cbn [map]; [auto|].
        f_equal.
        + destruct H1 as (p & Ep & Er). injection Ep as <-. apply Hpos; auto.
          * apply Hi'. simpl. auto.
          * apply in_map. apply Hi. simpl. auto.
        + apply IH; auto; intros x Hx; [apply Hi|apply Hi']; simpl; auto.
      - rewrite Edata, E2. apply dict_of_nodup; auto. rewrite map_length. auto. }
    split; [auto|]. split; [congruence|]. split.
    { rewrite Lf. rewrite <- (Permutation_length (zones_faces_perm h (conj Ht Hz))), <- flat_map_concat_map.
      assert (G : forall i, length (flat_map (z_faces h') (firstn i (g_zones h'))) =
                            length (flat_map (z_faces h) (firstn i (g_zones h)))).
      { induction i as [|i IH]; [reflexivity|].
        destruct (nth_error (g_zones h) i) as [z|] eqn:Ez.
        - destruct (nth_error (g_zones h') i) as [z'|] eqn:Ez'; [|exfalso; apply nth_error_None in Ez'; assert (i < length (g_zones h)) by (apply nth_error_Some; congruence); lia].
          destruct (nth_error zrs i) as [zr|] eqn:Ezr; [|exfalso; apply nth_error_None in Ezr; assert (i < length (g_zones h)) by (apply nth_error_Some; congruence); lia].
          rewrite (firstn_snoc _ _ _ _ Ez), (firstn_snoc _ _ _ _ Ez'), !flat_map_app, !app_length, IH. cbn [flat_map].
          rewrite !app_nil_r. f_equal. destruct (Hzs i z' zr Ez' Ezr) as (_ & E & _). rewrite E.
          destruct (Forall2_nth_error _ _ _ _ _ _ _ _ Hd Ez Ezr) as (_ & _ & _ & _ & E5).
          symmetry. eapply Forall2_len'; eauto.
        - apply nth_error_None in Ez. rewrite !firstn_all2 in IH |- * by lia.
          auto. }
      specialize (G (length (g_zones h))). rewrite !firstn_all2 in G by lia. exact G. }
    split.
    { intros p. split.
      - intros Hp. rewrite ld_pts in Hp. apply firsts_in in Hp as (u & w & Eu & _).
        assert (Hi : In p (all_pts zrs)) by (rewrite Eu; apply in_app_iff; right; left; auto).
        unfold all_pts in Hi. apply in_flat_map in Hi as (zr & Hzr & Hi).
        destruct (Forall2_in_r _ _ _ _ _ _ Hd Hzr) as (z & Hzin & Hdz). destruct Hdz as (_ & _ & Ep & _).
        rewrite Ep in Hi. exists z. auto.
      - intros (z & Hzin & Hp).
        assert (Hi : In (rnd p) (map rnd (all_pts zrs))).
        { apply in_map. unfold all_pts. apply in_flat_map. apply In_nth_error in Hzin as (i & Ez).
          destruct (nth_error zrs i) as [zr|] eqn:Ezr; [|exfalso; apply nth_error_None in Ezr; assert (i < length (g_zones h)) by (apply nth_error_Some; congruence); lia].
          destruct (Forall2_nth_error _ _ _ _ _ _ _ _ Hd Ez Ezr) as (_ & _ & E3 & _).
          exists zr. split; [eapply nth_error_In; eauto|]. rewrite E3. auto. }
        apply firsts_rnd in Hi. rewrite <- ld_pts, map_map in Hi. apply in_map_iff in Hi as (n' & Er & Hn').
        assert (E : n_p h' n' = p); [|rewrite <- E; apply in_map; auto].
        apply Hpos; auto; [|rewrite ld_rc by auto; auto].
        apply in_map_iff in Hp as (n & <- & Hn). apply in_map. destruct (Hl z Hzin) as [Hs _].
        apply (sublist_In _ _ _ _ n Hs). auto. }
    intros i z z' Ez Ez'.
    destruct (nth_error zrs i) as [zr|] eqn:Ezr; [|exfalso; apply nth_error_None in Ezr; assert (i < length (g_zones h)) by (apply nth_error_Some; congruence); lia].
    destruct (Hzs i z' zr Ez' Ezr) as (En & Ln & _).
    destruct (Forall2_nth_error _ _ _ _ _ _ _ _ Hd Ez Ezr) as (E1 & E2 & E3 & E4 & E5).
    assert (Lfaces : length (z_faces h' z') = length (z_faces h z)).
    { rewrite Ln. symmetry. eapply Forall2_len'; eauto. }
    assert (Hzin : In z (g_zones h)) by (eapply nth_error_In; eauto).
    assert (Hzin' : In z' (g_zones h')) by (eapply nth_error_In; eauto).
    split; [congruence|]. split; [|split; [auto|]].
    - (* positions of the nodes of a zone are the corners of its faces *)
      assert (C1 : forall p, In p (map (n_p h) (z_nodes h z)) <->
        exists f, In f (z_faces h z) /\ In p (map (n_p h) (f_nodes h f))).
      { intros p. destruct (Hl z Hzin) as [Hs _]. split.
        - intros Hp. apply in_map_iff in Hp as (n & <- & Hn). apply (sublist_In _ _ _ _ n Hs) in Hn as (Hg & f & Hf & Hfz).
          assert (Hfg : In f (g_faces h)) by (apply (t_node_faces h Ht n Hg); auto).
          exists f. split; [apply (zo_faces h Hz z f Hzin); auto|]. apply in_map. apply (t_nf h Ht n f Hg Hfg). auto.
        - intros (f & Hf & Hp). apply in_map_iff in Hp as (n & <- & Hn). apply in_map.
          apply (zone_face_incl h z f (conj Ht Hz) Hl Hzin Hf). auto. }
      assert (C2 : forall p, In p (map (n_p h') (z_nodes h' z')) <->
        exists f, In f (z_faces h' z') /\ In p (map (n_p h') (f_nodes h' f))).
      { intros p. destruct (ld_lists z' Hzin') as [Hs _]. split.
        - intros Hp. apply in_map_iff in Hp as (n & <- & Hn). apply (sublist_In _ _ _ _ n Hs) in Hn as (Hg & f & Hf & Hfz).
          assert (Hfg : In f (g_faces h')) by (apply (t_node_faces h' Ht' n Hg); auto).
          exists f. split; [apply (zo_faces h' ld_zok z' f Hzin'); auto|]. apply in_map. apply (t_nf h' Ht' n f Hg Hfg). auto.
        - intros (f & Hf & Hp). apply in_map_iff in Hp as (n & <- & Hn). apply in_map.
          apply (zone_face_incl h' z' f (conj Ht' ld_zok) ld_lists Hzin' Hf). auto. }
      intros p. rewrite C1, C2. split.
      + intros (f' & Hf' & Hp). apply In_nth_error in Hf' as (k & Ek').
        destruct (nth_error (z_faces h z) k) as [f|] eqn:Ek; [|exfalso; apply nth_error_None in Ek; assert (k < length (z_faces h' z')) by (apply nth_error_Some; congruence); lia].
        exists f. split; [eapply nth_error_In; eauto|].
        destruct (Hface i z z' zr k f f' Ez Ez' Ezr Ek Ek') as (_ & E & _). rewrite <- E. auto.
      + intros (f & Hf & Hp). apply In_nth_error in Hf as (k & Ek).
        destruct (nth_error (z_faces h' z') k) as [f'|] eqn:Ek'; [|exfalso; apply nth_error_None in Ek'; assert (k < length (z_faces h z)) by (apply nth_error_Some; congruence); lia].
        exists f'. split; [eapply nth_error_In; eauto|].
        destruct (Hface i z z' zr k f f' Ez Ez' Ezr Ek Ek') as (_ & E & _). rewrite E. auto.
    - intros k f f' Ek Ek'. destruct (Hface i z z' zr k f f' Ez Ez' Ezr Ek Ek') as (_ & E & Edata & _).
      split; [auto|]. rewrite Edata. split; [apply keys_combine; rewrite map_length; auto|].
      intros v Hv. apply dget_combine. auto.
  Qed.
End RoundTrip.
