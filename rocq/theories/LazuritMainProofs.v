(** Proofs about the program lazurit_to_crystal.py. *)

From Coq Require Import ZArith Reals Bool List Lia String Ascii Permutation Sorted.
From Verif Require Import Py PyLemmas TextLemmas Heap HeapLemmas GridModel GridSpec GridIO FileSpec LoadParse LoadProps StoreProofs StoreSpec
  Geom Convert ConvertSpec ConvertMore AnsysExport AnsysMainText AnsysMainFinal LazuritMain LazuritMainSpec.
Import ListNotations.
Open Scope list_scope.
Open Scope nat_scope.

Section LazuritMain.
  Context {F : FloatOps}.

  Notation readw := (fun (w : str) (v : val) => prs w = Some v).

  (** ** Parts of lists *)

  Lemma f2_concat : forall (ls : list (list val)) ts, Forall2 readw ts (List.concat ls) ->
    exists tss, ts = List.concat tss /\ Forall2 (Forall2 readw) tss ls.
  Proof.
    induction ls as [|l ls IH]; intros ts H; cbn [List.concat] in H.
    - inversion H; subst. exists []. split; [reflexivity|constructor].
    - apply Forall2_app_inv_r in H as (a & b & Ha & Hb & ->). destruct (IH _ Hb) as (tss & -> & Ht). exists (a :: tss). split; [reflexivity|constructor; auto].
  Qed.

  Lemma slice_nth : forall (tss : list (list str)) rest h v, (forall l, In l tss -> List.length l = h) -> v < List.length tss ->
    slice (List.concat tss ++ rest) (v * h) (S v * h) = nth v tss [].
  Proof.
    unfold slice. induction tss as [|t tss IH]; intros rest h v L Hv; [cbn in Hv; lia|].
    assert (Lt : List.length t = h) by (apply L; left; auto). cbn [List.concat]. rewrite <- app_assoc.
    destruct v as [|v].
    - cbn [nth Nat.mul]. rewrite Nat.add_0_r, Nat.sub_0_r. cbn [skipn]. rewrite <- Lt, firstn_app, firstn_all, Nat.sub_diag. cbn. apply app_nil_r.
    - cbn [nth]. rewrite skipn_app, Lt. replace (S v * h - h) with (v * h) by lia. rewrite skipn_all2 by (rewrite Lt; nia). cbn [app].
      replace (S (S v) * h - S v * h) with (S v * h - v * h) by lia. apply IH; [intros l I; apply L; right; auto|cbn in Hv; lia].
  Qed.

  Lemma f2_len : forall A B (R : A -> B -> Prop) l m, Forall2 R l m -> List.length l = List.length m.
  Proof. intros A B R l m H. induction H; cbn; auto. Qed.

  Lemma f2_same_len : forall (tss : list (list str)) ls h, Forall2 (Forall2 readw) tss ls -> (forall l, In l ls -> List.length l = h) ->
    forall l, In l tss -> List.length l = h.
  Proof.
    intros tss ls h H. induction H as [|t l tss ls Ht H IH]; intros L x I; [destruct I|]. destruct I as [<-|I].
    - rewrite (f2_len _ _ _ _ _ Ht). apply L. left; auto.
    - apply IH; auto. intros y Iy. apply L. right; auto.
  Qed.

  (** ** Doubled lists *)

  Definition dbl {A} (l : list A) : list A := flat_map (fun e => [e; e]) l.

  Lemma dbl_length : forall A (l : list A), List.length (dbl l) = 2 * List.length l.
  Proof. intros A l. induction l as [|x l IH]; [reflexivity|]. change (dbl (x :: l)) with (x :: x :: dbl l). cbn [List.length]. rewrite IH. lia. Qed.

  Lemma dbl_nth : forall A (l : list A) c e, e < 2 -> nth_error (dbl l) (2 * c + e) = nth_error l c.
  Proof.
    intros A l. induction l as [|x l IH]; intros c e He.
    - destruct c; destruct (2 * _ + e); reflexivity.
    - change (dbl (x :: l)) with (x :: x :: dbl l). destruct c as [|c].
      + destruct e as [|[|e]]; try reflexivity; lia.
      + replace (2 * S c + e) with (S (S (2 * c + e))) by lia. cbn [nth_error]. apply IH. auto.
  Qed.

  Lemma dbl_reads : forall ws vs, Forall2 readw ws vs -> Forall2 readw (double_list ws) (dbl vs).
  Proof. intros ws vs H. induction H; [constructor|]. cbn. repeat constructor; auto. Qed.

  Lemma neg_reads : forall opp neg, negates opp neg -> forall ws vs, Forall2 readw ws vs ->
    exists ws', double_and_neg_list neg ws = Ok ws' /\ Forall2 readw ws' (dbl (map opp vs)) /\ Forall word ws'.
  Proof.
    intros opp neg Hn ws vs H. unfold double_and_neg_list.
    assert (G : exists ll, rmap (fun e => do x <- neg e; do y <- neg e; Ok [x; y]) ws = Ok ll /\
      Forall2 readw (List.concat ll) (dbl (map opp vs)) /\ Forall word (List.concat ll)).
    { induction H as [|w v ws vs Hw H IH]; [exists []; cbn; auto|]. destruct IH as (ll & E & R & W). destruct (Hn _ _ Hw) as (e' & En & We & Pe).
      exists ([e'; e'] :: ll). cbn [rmap]. rewrite En. cbn [rbind]. rewrite E. cbn [rbind]. split; [reflexivity|]. split.
      - change (dbl (map opp (v :: vs))) with (opp v :: opp v :: dbl (map opp vs)). cbn. repeat constructor; auto.
      - cbn. repeat constructor; auto; apply We. }
    destruct G as (ll & -> & R & W). cbn [rbind]. eauto.
  Qed.
  (** ** A line of words *)

  Definition wl (ws : list str) : str := join (lit " ") ws ++ [nl].

  Lemma wl_number : forall ws vs, Forall word ws -> Forall2 readw ws vs -> number_line (wl ws) vs.
  Proof.
    intros ws vs W H. unfold number_line, wl. change (lit " ") with [sp]. rewrite split_ws_join; auto. rewrite Forall_forall in W. exact W.
  Qed.

  Lemma wl_whole : forall ws, Forall word ws -> whole_line (wl ws).
  Proof.
    intros ws W. unfold wl. apply plain_line. intros c I. apply (join_chars ws c); auto. rewrite Forall_forall in W. exact W.
  Qed.

  Lemma words_of : forall ls w, In w (flat_map split_ws ls) -> word w.
  Proof. intros ls w I. apply in_flat_map in I as (l & _ & I). apply (words_in l w I). Qed.

  (** ** The zone of a block *)

  Definition vars11 : list str := map lit ["X"; "Y"; "Z"]%string ++ wall_names.

  Definition low (t : nat * nat * nat) : nat * nat * nat := let '(a, b, c) := t in (a - 1, b - 1, c - 1).

  Definition signed (opp : val -> val) (b : wall_block) : list (list val) := firstn 5 (wb_d b) ++ map (map opp) (skipn 5 (wb_d b)).

  Definition rec_of (opp : val -> val) (name : str) (b : wall_block) : zone_rec :=
    mkZone name wall_names (combine (combine (wb_x b) (wb_y b)) (wb_z b))
      (map (fun k => map (fun l => nth (k / 2) l val0) (signed opp b)) (seq 0 (2 * wb_cells b)))
      (map low (links (wb_i b) (wb_j b))).

  Lemma signed_len : forall opp b l, whole_block b -> In l (signed opp b) -> List.length l = wb_cells b.
  Proof.
    intros opp b l (_ & _ & _ & _ & _ & _ & L) I. unfold signed in I. apply in_app_iff in I as [I|I].
    - apply L. rewrite <- (firstn_skipn 5 (wb_d b)). apply in_app_iff. auto.
    - apply in_map_iff in I as (l' & <- & I). rewrite map_length. apply L. rewrite <- (firstn_skipn 5 (wb_d b)). apply in_app_iff. auto.
  Qed.

  Lemma row_at : forall opp b c e row, whole_block b -> c < wb_cells b -> e < 2 ->
    nth_error (zr_data (rec_of opp (lit "") b)) (2 * c + e) = Some row ->
    Forall2 (fun l v => nth_error l c = Some v) (signed opp b) row.
  Proof.
    intros opp b c e row Hb Hc He E. cbn [rec_of zr_data] in E. rewrite nth_error_map in E.
    rewrite (nth_error_nth' _ 0) in E by (rewrite seq_length; lia). rewrite seq_nth in E by lia. cbn [option_map] in E.
    replace ((0 + (2 * c + e)) / 2) with c in E by (rewrite Nat.add_0_l, Nat.mul_comm, Nat.div_add_l by lia; rewrite (Nat.div_small e) by lia; lia).
    injection E as <-.
    assert (G : forall ls, (forall l, In l ls -> List.length l = wb_cells b) -> Forall2 (fun l v => nth_error l c = Some v) ls (map (fun l => nth c l val0) ls)).
    { induction ls as [|l ls IH]; intros L; [constructor|]. cbn [map]. constructor; [|apply IH; intros x I; apply L; right; auto].
      apply nth_error_nth'. rewrite (L l) by (left; auto). exact Hc. }
    apply G. intros l I. eapply signed_len; eauto.
  Qed.

  Lemma rec_zone : forall opp name b, whole_block b -> zone_of_block opp name b (rec_of opp name b).
  Proof.
    intros opp name b Hb. split; [reflexivity|]. split; [reflexivity|]. split; [reflexivity|].
    split; [cbn [rec_of zr_conn]; rewrite map_length; apply links_length|].
    split; [cbn [rec_of zr_data]; rewrite map_length, seq_length; reflexivity|].
    split.
    - intros i j Hi Hj n c. destruct (links_at _ _ _ _ Hi Hj) as [A B]. cbn [rec_of zr_conn]. rewrite !nth_error_map. unfold c. rewrite A, B.
      unfold n, node_at, lower_half, upper_half, node_no. cbn [option_map low]. rewrite !Nat.sub_succ, !Nat.sub_0_r. auto.
    - intros c e row Hc He E. eapply row_at; eauto.
  Qed.

  Lemma low_ok : forall zi zj t, In t (links zi zj) -> corner_line (zi * zj) (link_text t) (low t) /\ whole_line (link_text t).
  Proof.
    intros zi zj t I. apply In_nth_error in I as (k & E). destruct (links_proper _ _ _ _ E) as [_ P]. destruct t as [[a b] c].
    assert (L : link_text (a, b, c) = link_line (a - 1, b - 1, c - 1)).
    { cbn in P. unfold link_text, link_line. apply Forall_cons_iff in P as [Pa P]. apply Forall_cons_iff in P as [Pb P]. apply Forall_cons_iff in P as [Pc _].
      rewrite !Nat.sub_add by lia. reflexivity. }
    rewrite L. split; [|apply link_whole]. cbn in P. apply Forall_cons_iff in P as [Pa P]. apply Forall_cons_iff in P as [Pb P]. apply Forall_cons_iff in P as [Pc _].
    apply link_ok; lia.
  Qed.

  Lemma nth_combine : forall A B (l : list A) (m : list B) i x y, nth_error (combine l m) i = Some (x, y) ->
    nth_error l i = Some x /\ nth_error m i = Some y.
  Proof.
    intros A B l. induction l as [|a l IH]; intros m i x y E; [destruct i; discriminate|]. destruct m as [|c m]; [destruct i; discriminate|].
    destruct i as [|i]; cbn in *; [injection E as <- <-; auto|auto].
  Qed.

  Lemma take_app : forall k (a b : list str), List.length a = k -> take_lines k (a ++ b) = (a, b).
  Proof. intros k a b <-. apply take_lines_app. Qed.

  Lemma eleven_form : forall name z opp b rest, whole_block b -> (forall x, In x name -> x <> eqsign /\ x <> nl /\ x <> cr) ->
    lz_nodes z = wb_i b * wb_j b -> lz_elements z = 2 * wb_cells b -> lz_links z = links (wb_i b) (wb_j b) ->
    (exists wx wy wz, lz_coords z = [wx; wy; wz] /\ Forall word wx /\ Forall word wy /\ Forall word wz /\
      Forall2 readw wx (wb_x b) /\ Forall2 readw wy (wb_y b) /\ Forall2 readw wz (wb_z b)) ->
    Forall2 (Forall2 readw) (lz_data z) (map dbl (signed opp b)) -> Forall (Forall word) (lz_data z) ->
    (exists l ls, zone_text name z ++ rest = l :: ls /\ zone_line l name /\ zone_block vars11 ls (rec_of opp name b) rest) /\
    (forall l, In l (zone_text name z) -> whole_line l).
  Proof.
    intros name z opp b rest Hb Hname En Ee El (wx & wy & wz & Ec & Wx & Wy & Wz & Rx & Ry & Rz) Rd Wd. split.
    - eexists. eexists. split; [reflexivity|]. split; [apply (zone_line_ok name); exact Hname|].
      assert (Hc : ~ In eqsign (lit "NODES") /\ ~ In eqsign (lit "ELEMENTS")) by (split; apply eqs_no; reflexivity).
      unfold zone_block.
      exists (lit "NODES=" ++ nat_str (lz_nodes z) ++ [nl]), (lit "ELEMENTS=" ++ nat_str (lz_elements z) ++ [nl]),
        (lit "DATAPACKING=BLOCK" ++ [nl]), (lit "ZONETYPE=FETRIANGLE" ++ [nl]), (lit "VARLOCATION=([4-11]=CELLCENTERED)" ++ [nl]).
      exists ((map wl (lz_coords z) ++ map wl (lz_data z) ++ map link_text (lz_links z)) ++ rest), (Z.of_nat (lz_nodes z)), (Z.of_nat (lz_elements z)).
      exists (wl wx), (wl wy), (wl wz), (wb_x b), (wb_y b), (wb_z b), ((map wl (lz_data z) ++ map link_text (lz_links z)) ++ rest).
      exists (map wl (lz_data z)), (map dbl (signed opp b)), (map link_text (lz_links z) ++ rest), (map link_text (lz_links z)).
      destruct Hb as (Hi & Hj & Lx & Ly & Lz & Ld & Ll).
      assert (Hb : whole_block b) by (repeat split; auto).
      split; [reflexivity|].
      split; [apply count_ok with (lit "NODES"); [reflexivity|apply Hc]|].
      split; [apply count_ok with (lit "ELEMENTS"); [reflexivity|apply Hc]|].
      split; [exists nl; reflexivity|]. split; [exists nl; reflexivity|]. split; [exists nl; reflexivity|].
      split; [reflexivity|]. split; [rewrite Ec; reflexivity|].
      split; [apply wl_number; auto|]. split; [apply wl_number; auto|]. split; [apply wl_number; auto|].
      rewrite !Nat2Z.id.
      assert (Lp : List.length (zr_pts (rec_of opp name b)) = lz_nodes z).
      { transitivity (List.length (combine (combine (wb_x b) (wb_y b)) (wb_z b))); [reflexivity|]. rewrite !combine_length, Lx, Ly, Lz, En. lia. }
      split; [exact Lp|].
      split.
      { intros i x y w E. cbn [rec_of zr_pts] in E. apply nth_combine in E as [E Ez]. apply nth_combine in E as [Ex Ey]. auto. }
      split; [rewrite <- app_assoc; apply take_app; rewrite map_length, (f2_len _ _ _ _ _ Rd), map_length; unfold signed;
              rewrite app_length, map_length, <- app_length, firstn_skipn, Ld; reflexivity|].
      split. { clear -Rd Wd. induction Rd as [|w v ws vs Hw Rd IH]; [constructor|]. apply Forall_cons_iff in Wd as [W1 W2]. cbn [map]. constructor; [apply wl_number; auto|auto]. }
      split; [cbn [rec_of zr_data]; rewrite map_length, seq_length, Ee; reflexivity|].
      split.
      { intros i row E. assert (Hk : i < 2 * wb_cells b). { assert (i < List.length (zr_data (rec_of opp name b))) by (apply nth_error_Some; congruence).
          revert H. cbn [rec_of zr_data]. rewrite map_length, seq_length. auto. }
        set (c := i / 2). set (e := i mod 2). assert (Ei : i = 2 * c + e) by (apply Nat.div_mod; lia). assert (He : e < 2) by (apply Nat.mod_upper_bound; lia).
        clearbody c e. subst i.
        assert (G : Forall2 (fun l v => nth_error l c = Some v) (signed opp b) row) by (eapply row_at; [exact Hb|lia|exact He|exact E]).
        clear -G He. induction G as [|l v ls vs Hl G IH]; [constructor|]. cbn [map]. constructor; [|exact IH]. rewrite dbl_nth; auto. }
      split; [apply take_app; rewrite map_length, El, Ee; apply links_length|].
      rewrite Lp, En, El. cbn [rec_of zr_conn].
      assert (G : forall l, incl l (links (wb_i b) (wb_j b)) -> Forall2 (corner_line (wb_i b * wb_j b)) (map link_text l) (map low l)).
      { induction l as [|t l IH]; intros I; [constructor|]. cbn [map]. constructor; [apply (low_ok (wb_i b) (wb_j b)); apply I; left; auto|apply IH; intros x Ix; apply I; right; auto]. }
      apply G. intros x Ix; auto.
    - intros l I. unfold zone_text in I. rewrite !in_app_iff in I. destruct I as [I|[I|[I|I]]].
      + cbn [In] in I.
        repeat (destruct I as [<-|I]; [first [apply plain_line; apply lit_ok; vm_compute; reflexivity | idtac]|]); [| | |destruct I].
        * change (lit "ZONE T=" ++ [dquote] ++ name ++ [dquote; nl]) with (lit "ZONE T=" ++ [dquote] ++ name ++ [dquote] ++ [nl]).
          rewrite !app_assoc. apply plain_line. repeat apply plain_app; try (apply lit_ok; vm_compute; reflexivity).
          intros c Ic. destruct (Hname c Ic) as (_ & ? & ?). auto.
        * rewrite app_assoc. apply plain_line. apply plain_app; [apply lit_ok; vm_compute; reflexivity|apply plain_nat].
        * rewrite app_assoc. apply plain_line. apply plain_app; [apply lit_ok; vm_compute; reflexivity|apply plain_nat].
      + rewrite Ec in I. destruct I as [<-|[<-|[<-|[]]]]; apply wl_whole; auto.
      + apply in_map_iff in I as (ws & <- & I). apply wl_whole. rewrite Forall_forall in Wd. auto.
      + apply in_map_iff in I as (t & <- & I). rewrite El in I. apply (low_ok _ _ _ I).
  Qed.

  (** ** A pair of files *)

  Lemma pair_form : forall opp neg gtext stext b, negates opp neg -> block_files gtext stext b ->
    exists z, pair_zone neg gtext stext = Ok z /\
    lz_nodes z = wb_i b * wb_j b /\ lz_elements z = 2 * wb_cells b /\ lz_links z = links (wb_i b) (wb_j b) /\
    (exists wx wy wz, lz_coords z = [wx; wy; wz] /\ Forall word wx /\ Forall word wy /\ Forall word wz /\
      Forall2 readw wx (wb_x b) /\ Forall2 readw wy (wb_y b) /\ Forall2 readw wz (wb_z b)) /\
    Forall2 (Forall2 readw) (lz_data z) (map dbl (signed opp b)) /\ Forall (Forall word) (lz_data z).
  Proof.
    intros opp neg gtext stext b Hn (Hb & Hs & Hg & Hd).
    assert (Hb' := Hb). destruct Hb' as (Hi & Hj & Lx & Ly & Lz & Ld & Ll).
    destruct Hs as (l & s1 & s3 & s5 & El & E1 & E3 & E5 & I1 & I3 & I5).
    assert (Es : read_sizes gtext = Ok (Z.of_nat (wb_i b), Z.of_nat (wb_j b), 1%Z)).
    { unfold read_sizes. rewrite (nth_error_nth _ _ _ El). change 1%Z with (Z.of_nat 1) at 1. change 3%Z with (Z.of_nat 3). change 5%Z with (Z.of_nat 5).
      rewrite (py_get_nat _ _ _ _ E1). cbn [rbind]. rewrite I1. cbn [rbind]. rewrite (py_get_nat _ _ _ _ E3). cbn [rbind]. rewrite I3. cbn [rbind].
      rewrite (py_get_nat _ _ _ _ E5). cbn [rbind]. rewrite I5. reflexivity. }
    destruct Hg as (gw & grest & Eg & Rg). destruct Hd as (sw & srest & Ed & Rs).
    assert (Wg : forall w, In w gw -> word w).
    { intros w I. apply (words_of (skipn 6 (file_lines gtext))). rewrite Eg. apply in_app_iff. auto. }
    assert (Ws : forall w, In w sw -> word w).
    { intros w I. apply (words_of (skipn 6 (file_lines stext))). rewrite Ed. apply in_app_iff. auto. }
    assert (Rg' : Forall2 readw gw (List.concat [wb_x b; wb_y b; wb_z b])) by (cbn [List.concat]; rewrite app_nil_r; exact Rg).
    destruct (f2_concat _ _ Rg') as (gss & -> & Rgs). destruct (f2_concat _ _ Rs) as (sss & -> & Rss).
    inversion Rgs as [|wx xs gs1 l1 Rx G1]; subst. inversion G1 as [|wy ys gs2 l2 Ry G2]; subst. inversion G2 as [|wz zs gs3 l3 Rz G3]; subst. inversion G3; subst. clear Rgs G1 G2 G3.
    assert (Lg : forall l, In l [wx; wy; wz] -> List.length l = wb_i b * wb_j b).
    { intros x [<-|[<-|[<-|[]]]]; [rewrite (f2_len _ _ _ _ _ Rx)|rewrite (f2_len _ _ _ _ _ Ry)|rewrite (f2_len _ _ _ _ _ Rz)]; auto. }
    assert (Ls : forall l, In l sss -> List.length l = wb_cells b) by (eapply f2_same_len; eauto).
    assert (L8 : List.length sss = 8) by (rewrite (f2_len _ _ _ _ _ Rss); exact Ld).
    assert (Wss : Forall (Forall word) sss).
    { apply Forall_forall. intros t It. apply Forall_forall. intros w Iw. apply Ws. apply in_concat. eauto. }
    destruct sss as [|t0 [|t1 [|t2 [|t3 [|t4 [|t5 [|t6 [|t7 [|t8 sss]]]]]]]]]; try discriminate L8.
    inversion Rss as [|a0 d0 b0 e0 Q0 R0]; subst. inversion R0 as [|a1 d1 b1 e1 Q1 R1]; subst. inversion R1 as [|a2 d2 b2 e2 Q2 R2]; subst.
    inversion R2 as [|a3 d3 b3 e3 Q3 R3]; subst. inversion R3 as [|a4 d4 b4 e4 Q4 R4]; subst. inversion R4 as [|a5 d5 b5 e5 Q5 R5]; subst.
    inversion R5 as [|a6 d6 b6 e6 Q6 R6]; subst. inversion R6 as [|a7 d7 b7 e7 Q7 R7]; subst. inversion R7; subst.
    match goal with H : _ = wb_d b |- _ => rename H into Edd end.
    destruct (neg_reads opp neg Hn _ _ Q5) as (n5 & N5 & X5 & Y5). destruct (neg_reads opp neg Hn _ _ Q6) as (n6 & N6 & X6 & Y6).
    destruct (neg_reads opp neg Hn _ _ Q7) as (n7 & N7 & X7 & Y7).
    assert (Sg : forall v, v < 3 -> slice (List.concat [wx; wy; wz] ++ grest) (v * (wb_i b * wb_j b)) (S v * (wb_i b * wb_j b)) = nth v [wx; wy; wz] []).
    { intros v Hv. apply slice_nth; auto. }
    assert (Ss : forall v, v < 8 -> slice (List.concat [t0; t1; t2; t3; t4; t5; t6; t7] ++ srest) (v * wb_cells b) (S v * wb_cells b) = nth v [t0; t1; t2; t3; t4; t5; t6; t7] []).
    { intros v Hv. apply slice_nth; auto. }
    exists (LZone (wb_i b * wb_j b) (2 * wb_cells b) [wx; wy; wz] [double_list t0; double_list t1; double_list t2; double_list t3; double_list t4; n5; n6; n7] (links (wb_i b) (wb_j b))).
    split.
    { unfold pair_zone. rewrite Es. cbn [rbind]. cbn [negb Z.eqb Pos.eqb].
      replace ((Z.of_nat (wb_i b) <? 1)%Z || (Z.of_nat (wb_j b) <? 1)%Z) with false
        by (symmetry; apply orb_false_intro; apply Z.ltb_ge; lia).
      rewrite !Nat2Z.id. unfold leap_lines. rewrite Eg, Ed. unfold lazurit_block. rewrite Nat.mul_1_r. fold (wb_cells b).
      rewrite (Ss 5), (Ss 6), (Ss 7) by lia. cbn [nth]. rewrite N5. cbn [rbind]. rewrite N6. cbn [rbind]. rewrite N7. cbn [rbind].
      pose proof (Sg 0 ltac:(lia)) as G0. pose proof (Sg 1 ltac:(lia)) as G1. pose proof (Sg 2 ltac:(lia)) as G2. rewrite Nat.mul_0_l, Nat.mul_1_l in G0. rewrite Nat.mul_1_l in G1.
      pose proof (Ss 0 ltac:(lia)) as S0. pose proof (Ss 1 ltac:(lia)) as S1. rewrite Nat.mul_0_l, Nat.mul_1_l in S0. rewrite Nat.mul_1_l in S1.
      rewrite G0, G1, G2, S0, S1, (Ss 2), (Ss 3), (Ss 4) by lia. reflexivity. }
    cbn [lz_nodes lz_elements lz_links lz_coords lz_data]. split; [reflexivity|]. split; [reflexivity|]. split; [reflexivity|].
    split.
    { exists wx, wy, wz. split; [reflexivity|].
      split; [apply Forall_forall; intros w I; apply Wg; apply in_concat; exists wx; split; [left; auto|exact I]|].
      split; [apply Forall_forall; intros w I; apply Wg; apply in_concat; exists wy; split; [right; left; auto|exact I]|].
      split; [apply Forall_forall; intros w I; apply Wg; apply in_concat; exists wz; split; [right; right; left; auto|exact I]|]. auto. }
    split.
    - unfold signed. rewrite <- Edd. cbn [firstn skipn map app]. repeat (constructor; [first [apply dbl_reads; assumption | assumption]|]). constructor.
    - assert (D : forall t, Forall word t -> Forall word (double_list t)).
      { intros t H. induction H; [constructor|]. cbn [double_list flat_map app]. constructor; [assumption|]. constructor; assumption. }
      rewrite Forall_forall in Wss. repeat (constructor; [first [apply D; apply Wss; cbn; tauto | assumption]|]). constructor.
  Qed.
End LazuritMain.
