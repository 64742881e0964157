(** The program lazurit_to_crystal.py from a directory to the stored file. *)

From Coq Require Import ZArith Reals Bool List Lia String Ascii Permutation Sorted.
From Verif Require Import Py PyLemmas TextLemmas Heap HeapLemmas GridModel GridSpec GridIO FileSpec LoadParse LoadMain LoadProps StoreProofs StoreSpec
  RoundTrip Geom Convert ConvertSpec ConvertMore AnsysExport AnsysMainText AnsysMainFinal LazuritMain LazuritMainSpec LazuritMainProofs.
Import ListNotations.
Open Scope list_scope.
Open Scope nat_scope.

(** ** Names *)

Lemma last_b_app : forall q, ~ In "B"%char q -> forall p, last_b (p ++ "B"%char :: q) = Some ("B"%char :: q).
Proof.
  intros q Hq. assert (N : last_b q = None).
  { induction q as [|c q IH]; [reflexivity|]. cbn. rewrite IH by (intros I; apply Hq; right; auto).
    destruct (Ascii.eqb_spec c "B"%char) as [->|]; [exfalso; apply Hq; left; auto|reflexivity]. }
  induction p as [|c p IH]; cbn [app].
  - cbn [last_b]. rewrite N. reflexivity.
  - cbn [last_b]. rewrite IH. reflexivity.
Qed.

Lemma title_ok : forall file name, names_zone file name -> zone_title file = name.
Proof.
  intros file name (p & q & ext & -> & L & N & ->). unfold zone_title, get_block_name. rewrite last_b_app by exact N.
  rewrite app_comm_cons, app_length, L. replace (List.length ("B"%char :: q) + 4 - 4) with (List.length ("B"%char :: q)) by lia.
  rewrite firstn_app, firstn_all, Nat.sub_diag. cbn [firstn]. apply app_nil_r.
Qed.

Lemma title_none : forall file, ~ In "B"%char file -> zone_title file = lit "None".
Proof.
  intros file N. assert (E : last_b file = None).
  { induction file as [|c q IH]; [reflexivity|]. cbn. rewrite IH by (intros I; apply N; right; auto).
    destruct (Ascii.eqb_spec c "B"%char) as [->|]; [exfalso; apply N; left; auto|reflexivity]. }
  unfold zone_title, get_block_name. rewrite E. reflexivity.
Qed.

Lemma leb_text : forall a b, str_leb a b = true -> text_le a b.
Proof.
  induction a as [|x a IH]; intros b H; [left; exists b; reflexivity|]. destruct b as [|y b]; [discriminate|]. cbn [str_leb] in H.
  destruct (Nat.ltb_spec (nat_of_ascii x) (nat_of_ascii y)) as [L|L].
  - right. exists [], x, y, a, b. auto.
  - destruct (Nat.eqb_spec (nat_of_ascii x) (nat_of_ascii y)) as [E|]; [|discriminate H].
    assert (x = y) by (rewrite <- (ascii_nat_embedding x), E; apply ascii_nat_embedding). subst y.
    destruct (IH b H) as [(r & ->)|(p & u & v & r & s & -> & -> & Lt)]; [left; exists r; reflexivity|].
    right. exists (x :: p), u, v, r, s. auto.
Qed.

Lemma sort_text : forall l, StronglySorted text_le (sort_str l).
Proof.
  intros l. pose proof (sort_str_sorted l) as H. induction H as [|x r H IH Fx]; constructor; auto.
  apply Forall_forall. intros y Iy. rewrite Forall_forall in Fx. apply leb_text. apply Fx. auto.
Qed.

Lemma sorted_pairs : forall bs listing, Permutation (filter (contains (lit ".TEC")) listing) (map grid_name bs ++ map solution_name bs) ->
  directory_pairs listing = Ok (map (fun b => (grid_name b, solution_name b)) (sort_str bs)).
Proof.
  intros bs listing H. unfold directory_pairs.
  replace (sort_str (filter (contains (lit ".TEC")) listing)) with
    (map grid_name (sort_str bs) ++ map solution_name (sort_str bs)); [apply file_pairs_all|].
  apply sorted_unique.
  - apply sorted_app; try (apply sorted_map; apply sort_str_sorted). intros x y Hx Hy.
    apply in_map_iff in Hx as (a & <- & _). apply in_map_iff in Hy as (b & <- & _). apply grid_before.
  - apply sort_str_sorted.
  - apply (Permutation_trans (l' := map grid_name bs ++ map solution_name bs)).
    + apply Permutation_app; apply Permutation_map; apply sort_str_perm.
    + apply Permutation_sym. eapply Permutation_trans; [apply sort_str_perm|exact H].
Qed.

Lemma dget_one : forall (d : list (str * str)) k v, NoDup (map fst d) -> In (k, v) d -> dget str_dec d k = Some v.
Proof.
  induction d as [|[a b] d IH]; intros k v N I; [destruct I|]. cbn [map] in N. inversion N as [|? ? Ni Nd]; subst. cbn [dget].
  destruct I as [E|I]; [injection E as -> ->; destruct (str_dec k k); congruence|].
  destruct (str_dec k a) as [->|]; [|auto]. exfalso. apply Ni. cbn. change a with (fst (a, v)). apply in_map. exact I.
Qed.

Section LazuritFinal.
  Context {F : FloatOps}.

  (** ** A text is loaded into a new grid and stored *)

  Definition pass_through (text : str) : M str :=
    modify new_grid ;;; load true text ;;; h <- gets (fun h => h) ;; lift (store h).

  Lemma pass_ok : forall text evs vs, faithful_numbers -> file_form [] (file_lines text) evs -> NoDup vs ->
    (forall zr, In zr (zones_of evs) -> zr_vars zr = vs /\ forall row, In row (zr_data zr) -> List.length row = List.length vs) ->
    (no_degenerate (zones_of evs) -> ~ three_share (zones_of evs) -> (exists zr, In zr (zones_of evs) /\ zr_conn zr <> []) ->
     forall h, exists out h', pass_through text h = (Ok out, h') /\
       forall h0, exists h2, load true out h0 = (Ok tt, h2) /\ grid_ok h2 /\ holds_zones (zones_of evs) h2) /\
    (three_share (zones_of evs) -> forall h, fst (pass_through text h) = Raise EException) /\
    ((forall zr, In zr (zones_of evs) -> zr_conn zr = []) -> forall h, fst (pass_through text h) = Raise EIndexError).
  Proof.
    intros text evs vs Hn Ff Nv Hvs. set (zrs := zones_of evs) in *.
    split; [|split].
    - intros Nd T Hf h.
      destruct (load_accepts_main true text (new_grid h) _ Ff Nd T (or_introl eq_refl)) as (h1 & E1).
      assert (Hne : g_faces h1 <> []). { apply (has_face zrs); [|exact Hf]. apply (load_contents_main _ _ _ _ _ E1 Ff). }
      destruct (zones_again text h h1 _ vs Hn E1 Ff Nd Hne Nv Hvs) as (out & Es & R).
      exists out, h1. split; [|exact R].
      unfold pass_through. rewrite bind_modify. cbv beta. rewrite (bind_run _ _ _ _ _ _ _ E1). cbv beta. rewrite bind_gets. cbv beta. unfold lift. rewrite Es. reflexivity.
    - intros T h. pose proof (load_rejects_main text (new_grid h) _ Ff T) as Er.
      unfold pass_through. rewrite bind_modify. cbv beta.
      destruct (load true text (new_grid h)) as [r h1] eqn:El. cbn [fst] in Er. subst r. unfold bind at 1. rewrite El. reflexivity.
    - intros Hc h.
      assert (Fn : file_faces zrs = []).
      { clear -Hc. unfold file_faces. induction zrs as [|z zrs IH]; [reflexivity|]. cbn [flat_map]. rewrite (Hc z) by (left; auto). cbn [map app]. apply IH. intros zr I. apply Hc. right; auto. }
      assert (Nd : no_degenerate zrs) by (unfold no_degenerate; rewrite Fn; intros x []).
      assert (T : ~ three_share zrs).
      { intros (i & j & k & ti & tj & tk & p & q & _ & _ & _ & Ei & _). rewrite Fn in Ei. destruct i; discriminate. }
      destruct (load_accepts_main true text (new_grid h) _ Ff Nd T (or_introl eq_refl)) as (h1 & E1).
      assert (Hne : g_faces h1 = []).
      { destruct (load_contents_main _ _ _ _ _ E1 Ff) as ((Lz & Ef & Hz0) & _). fold zrs in Lz, Hz0. rewrite Ef.
        assert (X : forall z, In z (g_zones h1) -> z_faces h1 z = []).
        { intros z I. apply In_nth_error in I as (i & Ez).
          assert (exists zr, nth_error zrs i = Some zr) as (zr & Er).
          { destruct (nth_error zrs i) eqn:En; eauto. apply nth_error_None in En. assert (i < List.length (g_zones h1)) by (apply nth_error_Some; congruence). lia. }
          destruct (Hz0 _ _ _ Ez Er) as (_ & L & _). rewrite (Hc zr) in L by (eapply nth_error_In; eauto). destruct (z_faces h1 z); [reflexivity|discriminate]. }
        revert X. generalize (g_zones h1). induction l as [|z l IH]; intros X; [reflexivity|]. cbn [flat_map]. rewrite (X z) by (left; auto). apply IH. intros z' I. apply X. right; auto. }
      unfold pass_through. rewrite bind_modify. cbv beta. rewrite (bind_run _ _ _ _ _ _ _ E1). cbv beta. rewrite bind_gets. cbv beta.
      unfold lift. rewrite store_empty by exact Hne. reflexivity.
  Qed.

  (** ** The written file *)

  Lemma head_title : title_line (lit "TITLE=" ++ [dquote] ++ lit "FE Surface Data ASCII" ++ [dquote; nl]) (lit "FE Surface Data ASCII").
  Proof. split; [cbn; discriminate|]. split; [vm_compute; reflexivity|]. eexists. split; [vm_compute; reflexivity|vm_compute; reflexivity]. Qed.

  Lemma head_vars : vars_line (lit "VARIABLES=" ++ join (lit ", ") (map (fun n => [dquote] ++ lit n ++ [dquote])
     ["X"; "Y"; "Z"; "T"; "Hw"; "Hi"; "HTC"; "Beta"; "TauX"; "TauY"; "TauZ"]%string) ++ [nl]) vars11.
  Proof.
    split; [cbn; discriminate|]. split; [vm_compute; reflexivity|]. split; [vm_compute; reflexivity|].
    eexists. split; [reflexivity|]. vm_compute. reflexivity.
  Qed.

  Lemma head_whole : forall l, In l lazurit_head -> whole_line l.
  Proof.
    intros l [<-|[<-|[<-|[]]]].
    - apply plain_line. apply lit_ok. vm_compute. reflexivity.
    - change (lit "TITLE=" ++ [dquote] ++ lit "FE Surface Data ASCII" ++ [dquote; nl]) with ((lit "TITLE=" ++ [dquote] ++ lit "FE Surface Data ASCII" ++ [dquote]) ++ [nl]).
      apply plain_line. apply lit_ok. vm_compute. reflexivity.
    - rewrite app_assoc. apply plain_line. apply lit_ok. vm_compute. reflexivity.
  Qed.

  Lemma wall_nd : NoDup wall_names.
  Proof. unfold wall_names. repeat (constructor; [cbn; intros K; repeat destruct K as [K|K]; try discriminate; auto|]). constructor. Qed.

  Lemma pairs_form : forall opp neg dir bs nm bk, negates opp neg -> NoDup (map fst dir) ->
    (forall s, In s bs -> block_of dir s (nm s) (bk s)) ->
    exists ls, pairs_text neg dir (map (fun s => (grid_name s, solution_name s)) bs) = Ok ls /\
      file_form vars11 ls (map EZone (map (fun s => rec_of opp (nm s) (bk s)) bs)) /\ (forall l, In l ls -> whole_line l).
  Proof.
    intros opp neg dir bs nm bk Hn Nd H. unfold pairs_text.
    assert (G : exists ll, rmap (fun p => do gtext <- open_text dir (fst p); do stext <- open_text dir (snd p); do z <- pair_zone neg gtext stext;
        Ok (zone_text (zone_title (fst p)) z)) (map (fun s => (grid_name s, solution_name s)) bs) = Ok ll /\
      file_form vars11 (List.concat ll) (map EZone (map (fun s => rec_of opp (nm s) (bk s)) bs)) /\ (forall l, In l (List.concat ll) -> whole_line l)).
    { induction bs as [|s bs IH]; [exists []; split; [reflexivity|]; split; [constructor|intros l []]|].
      destruct IH as (ll & E & Ff & W); [intros x I; apply H; right; auto|].
      destruct (H s (or_introl eq_refl)) as (gt & st & Ig & Is & Bf & Nz & Nc).
      destruct (pair_form opp neg gt st (bk s) Hn Bf) as (z & Ez & En & Ee & El & Ec & Rd & Wd).
      destruct (eleven_form (nm s) z opp (bk s) (List.concat ll) (proj1 Bf) Nc En Ee El Ec Rd Wd) as ((l & ls & Et & Zl & Zb) & Wz).
      exists (zone_text (nm s) z :: ll). cbn [map rmap fst snd]. unfold open_text at 1 2. rewrite (dget_one _ _ _ Nd Ig), (dget_one _ _ _ Nd Is). cbn [rbind].
      rewrite Ez. cbn [rbind]. rewrite (title_ok _ _ Nz), E. cbn [rbind]. split; [reflexivity|]. split.
      - cbn [List.concat]. rewrite Et. eapply ff_zone; [exact Zl|exact Zb|exact Ff].
      - intros x I. cbn [List.concat] in I. apply in_app_iff in I as [I|I]; auto. }
    destruct G as (ll & -> & Ff & W). cbn [rbind]. eauto.
  Qed.

  Theorem lazurit_ok : forall opp neg, faithful_numbers -> negates opp neg ->
    forall dir bs nm bk, NoDup (map fst dir) ->
    Permutation (filter (contains (lit ".TEC")) (map fst dir)) (map grid_name bs ++ map solution_name bs) ->
    (forall s, In s bs -> block_of dir s (nm s) (bk s)) ->
    exists bs' zrs, Permutation bs' bs /\ StronglySorted text_le bs' /\ Forall2 (fun s zr => zone_of_block opp (nm s) (bk s) zr) bs' zrs /\
      (no_degenerate zrs -> ~ three_share zrs -> (exists zr, In zr zrs /\ zr_conn zr <> []) ->
       forall h, exists out h', lazurit_to_crystal neg dir h = (Ok out, h') /\
         forall h0, exists h2, load true out h0 = (Ok tt, h2) /\ grid_ok h2 /\ holds_zones zrs h2) /\
      (three_share zrs -> forall h, fst (lazurit_to_crystal neg dir h) = Raise EException) /\
      ((forall zr, In zr zrs -> zr_conn zr = []) -> forall h, fst (lazurit_to_crystal neg dir h) = Raise EIndexError).
  Proof.
    intros opp neg Hn Hneg dir bs nm bk Nd P H.
    assert (Edp : directory_pairs (map fst dir) = Ok (map (fun b => (grid_name b, solution_name b)) (sort_str bs))).
    { apply sorted_pairs. exact P. }
    exists (sort_str bs), (map (fun s => rec_of opp (nm s) (bk s)) (sort_str bs)).
    split; [apply sort_str_perm|]. split; [apply sort_text|].
    assert (H' : forall s, In s (sort_str bs) -> block_of dir s (nm s) (bk s)).
    { intros s I. apply H. eapply Permutation_in; [apply sort_str_perm|exact I]. }
    split.
    { clear -H'. induction (sort_str bs) as [|s l IH]; [constructor|]. cbn [map]. constructor; [|apply IH; intros x I; apply H'; right; auto].
      destruct (H' s (or_introl eq_refl)) as (gt & st & _ & _ & Bf & _). apply rec_zone. apply Bf. }
    destruct (pairs_form opp neg dir (sort_str bs) nm bk Hneg Nd H') as (ls & Els & Ff & W).
    set (zrs := map (fun s => rec_of opp (nm s) (bk s)) (sort_str bs)) in *.
    assert (Fa : file_form [] (file_lines (List.concat (lazurit_head ++ ls))) (ETitle (lit "FE Surface Data ASCII") :: map EZone zrs)).
    { rewrite file_lines_concat; [|intros l I; apply in_app_iff in I as [I|I]; [apply head_whole|]; auto].
      cbn [lazurit_head app]. eapply ff_comment; [reflexivity|]. eapply ff_title; [apply head_title|]. eapply ff_vars; [apply head_vars|]. exact Ff. }
    assert (Ez : zones_of (ETitle (lit "FE Surface Data ASCII") :: map EZone zrs) = zrs) by (apply (zones_map zrs)).
    assert (Hv : forall zr, In zr zrs -> zr_vars zr = wall_names /\ forall row, In row (zr_data zr) -> List.length row = List.length wall_names).
    { intros zr I. unfold zrs in I. apply in_map_iff in I as (s & <- & I). split; [reflexivity|]. intros row Ir. cbn [rec_of zr_data] in Ir.
      apply in_map_iff in Ir as (k & <- & _). rewrite map_length. unfold signed. rewrite app_length, map_length, <- app_length, firstn_skipn.
      destruct (H' s I) as (gt & st & _ & _ & ((_ & _ & _ & _ & _ & L8 & _) & _) & _). rewrite L8. reflexivity. }
    assert (Ep : forall h, lazurit_to_crystal neg dir h = pass_through (List.concat (lazurit_head ++ ls)) h).
    { intros h. unfold lazurit_to_crystal. rewrite Edp, bind_lift_ok. cbv beta. rewrite Els, bind_lift_ok. reflexivity. }
    rewrite <- Ez in Hv. destruct (pass_ok _ _ wall_names Hn Fa wall_nd Hv) as (A & B & C). rewrite Ez in A, B, C.
    split; [|split].
    - intros N1 N2 N3 h. rewrite Ep. apply A; auto.
    - intros T h. rewrite Ep. apply B; auto.
    - intros T h. rewrite Ep. apply C; auto.
  Qed.
End LazuritFinal.
