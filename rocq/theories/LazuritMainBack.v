(** What is stored by lazurit_to_crystal.py comes from complete files only. *)

From Coq Require Import ZArith Reals Bool List Lia String Ascii Permutation Sorted.
From Verif Require Import Py PyLemmas TextLemmas Heap HeapLemmas GridModel GridSpec GridIO FileSpec LoadParse LoadMain LoadProps StoreProofs StoreSpec
  Convert ConvertSpec ConvertMore AnsysExport AnsysMainText AnsysMainFinal LazuritMain LazuritMainSpec LazuritMainProofs LazuritMainFinal.
Import ListNotations.
Open Scope list_scope.
Open Scope nat_scope.

Lemma ok_inj' : forall A (a b : A), Ok a = Ok b -> a = b.
Proof. intros A a b H. injection H as H. exact H. Qed.

Lemma f2_cons : forall A B (R : A -> B -> Prop) a l m, Forall2 R (a :: l) m -> exists b m', m = b :: m' /\ R a b /\ Forall2 R l m'.
Proof. intros A B R a l m H. inversion H; subst. eauto. Qed.
Lemma f2_nil : forall A B (R : A -> B -> Prop) m, Forall2 R [] m -> m = [].
Proof. intros A B R m H. inversion H. reflexivity. Qed.

Lemma slice_len : forall A (l : list A) a b, List.length (slice l a b) <= b - a.
Proof. intros. unfold slice. rewrite firstn_length. lia. Qed.

Lemma skip_add : forall A (l : list A) a b, skipn a (skipn b l) = skipn (b + a) l.
Proof. intros A l a b. revert l. induction b as [|b IH]; intros l; [reflexivity|]. destruct l as [|x l]; [cbn; apply skipn_nil|]. cbn. apply IH. Qed.

Lemma skip_in : forall A n (l : list A) x, In x (skipn n l) -> In x l.
Proof. intros A n l x I. rewrite <- (firstn_skipn n l). apply in_app_iff. auto. Qed.
Lemma first_in : forall A n (l : list A) x, In x (firstn n l) -> In x l.
Proof. intros A n l x I. rewrite <- (firstn_skipn n l). apply in_app_iff. auto. Qed.

(** A list is the concatenation of its slices of length [h], if these are complete. *)
Lemma slices_app : forall A n (l : list A) h, (forall v, v < n -> List.length (slice l (v * h) (S v * h)) = h) ->
  l = List.concat (map (fun v => slice l (v * h) (S v * h)) (seq 0 n)) ++ skipn (n * h) l.
Proof.
  intros A n l h. induction n as [|n IH]; intros H; [reflexivity|].
  rewrite seq_S, map_app, concat_app. cbn [map List.concat Nat.add]. rewrite app_nil_r, <- app_assoc.
  rewrite IH at 1 by (intros v Hv; apply H; lia). f_equal.
  unfold slice. replace (S n * h - n * h) with h by lia. rewrite <- (firstn_skipn h (skipn (n * h) l)) at 1. f_equal.
  rewrite skip_add. f_equal. lia.
Qed.

Section LazuritBack.
  Context {F : FloatOps}.
  Notation readw := (fun (w : str) (v : val) => prs w = Some v).

  Lemma number_inv : forall ws vs, Forall word ws -> number_line (wl ws) vs -> Forall2 readw ws vs.
  Proof. intros ws vs W H. unfold number_line, wl in H. change (lit " ") with [sp] in H. rewrite split_ws_join in H; auto. rewrite Forall_forall in W. exact W. Qed.

  Lemma count_inv : forall (k : string) (key : str) n x, lit k = key ++ [eqsign] -> ~ In eqsign key ->
    count_line k (lit k ++ nat_str n ++ [nl]) x -> x = Z.of_nat n.
  Proof.
    intros k key n x E Hk (_ & s & Hs & Hx). destruct (count_ok k key n E Hk) as (_ & s' & Hs' & Hx'). unfold last_part in Hs, Hs'. subst s s'.
    rewrite Hx' in Hx. injection Hx as <-. reflexivity.
  Qed.

  (** A zone of the written file that is accepted. *)
  Lemma zone_back : forall name z rest evs wx wy wz, (forall x, In x name -> x <> eqsign /\ x <> nl /\ x <> cr) ->
    lz_coords z = [wx; wy; wz] -> Forall (Forall word) (lz_coords z) -> List.length (lz_data z) = 8 -> Forall (Forall word) (lz_data z) ->
    List.length (lz_links z) = lz_elements z ->
    file_form vars11 (zone_text name z ++ rest) evs ->
    exists evs' cx cy cz d, file_form vars11 rest evs' /\
      Forall2 readw wx cx /\ Forall2 readw wy cy /\ Forall2 readw wz cz /\ Forall2 (Forall2 readw) (lz_data z) d /\
      lz_nodes z <= List.length cx /\ lz_nodes z <= List.length cy /\ lz_nodes z <= List.length cz /\
      (forall l, In l d -> lz_elements z <= List.length l).
  Proof.
    intros name z rest evs wx wy wz Hname Ec Wc L8 Wd Ll H.
    destruct (zone_line_ok name Hname) as (Zh & Zt & Zv & _). unfold zl in Zh, Zt, Zv.
    unfold zone_text in H. cbn [app] in H.
    inversion H as [|? ? ? ? Hh _|? ? ? ? ? Ht _|? ? ? ? ? Hv _|? ? ? zr r evs' Hz Hb Hf]; subst.
    - exfalso. apply Zh. assumption.
    - destruct Ht as (_ & Ht & _). exfalso. apply (eq_true_false_abs _ Ht). exact Zt.
    - destruct Hv as (_ & _ & Hv & _). exfalso. apply (eq_true_false_abs _ Hv). exact Zv.
    - destruct Hb as (l1 & l2 & l3 & l4 & l5 & body & n & m & lx & ly & lz & cx & cy & cz & body2 & drows & d & body3 & crows & El & C1 & C2 & _ & _ & _ & Ev & Et & Nx & Ny & Nz & Lp & Pp & Ed & Nd & Ld & Pd & Ek & _).
      injection El as <- <- _ _ _ <-.
      apply (count_inv "NODES="%string (lit "NODES")) in C1; [|reflexivity|apply eqs_no; reflexivity].
      apply (count_inv "ELEMENTS="%string (lit "ELEMENTS")) in C2; [|reflexivity|apply eqs_no; reflexivity]. subst n m. rewrite Nat2Z.id in *.
      rewrite Ec in Et, Wc. cbn [map app take_lines hd tl] in Et. injection Et as <- <- <- <-.
      apply Forall_cons_iff in Wc as [Wx Wc]. apply Forall_cons_iff in Wc as [Wy Wc]. apply Forall_cons_iff in Wc as [Wz _].
      rewrite Ev in Ed. change (List.length (skipn 3 vars11)) with 8 in Ed. rewrite <- app_assoc in Ed. rewrite take_app in Ed by (rewrite map_length; exact L8).
      injection Ed as <- <-.
      rewrite take_app in Ek by (rewrite map_length; exact Ll). injection Ek as _ <-.
      exists evs', cx, cy, cz, d. split; [exact Hf|].
      split; [apply number_inv; auto|]. split; [apply number_inv; auto|]. split; [apply number_inv; auto|].
      split. { clear -Nd Wd. revert d Nd. induction (lz_data z) as [|w ws IH]; intros d Nd; cbn [map] in Nd; inversion Nd; subst; [constructor|].
        apply Forall_cons_iff in Wd as [W1 W2]. constructor; [apply number_inv; auto|apply IH; auto]. }
      assert (P3 : forall i, i < lz_nodes z -> exists x y w, nth_error cx i = Some x /\ nth_error cy i = Some y /\ nth_error cz i = Some w).
      { intros i Hi. destruct (nth_error (zr_pts zr) i) as [[[x y] w]|] eqn:E; [|apply nth_error_None in E; lia]. exists x, y, w. apply Pp. exact E. }
      assert (Le : forall A (l : list A) k, (forall i, i < k -> exists x, nth_error l i = Some x) -> k <= List.length l).
      { intros A l k Hk. destruct k as [|k]; [lia|]. destruct (Hk k ltac:(lia)) as (x & E). assert (k < List.length l) by (apply nth_error_Some; congruence). lia. }
      split; [apply Le; intros i Hi; destruct (P3 i Hi) as (x & y & w & A & B & C); eauto|].
      split; [apply Le; intros i Hi; destruct (P3 i Hi) as (x & y & w & A & B & C); eauto|].
      split; [apply Le; intros i Hi; destruct (P3 i Hi) as (x & y & w & A & B & C); eauto|].
      intros l Il. apply Le. intros i Hi. destruct (nth_error (zr_data zr) i) as [row|] eqn:E; [|apply nth_error_None in E; lia].
      specialize (Pd _ _ E). clear -Pd Il. induction Pd as [|a v ls vs Ha Pd IH]; [destruct Il|]. destruct Il as [<-|Il]; eauto.
  Qed.

  Lemma f2_read_words : forall ws vs, Forall2 readw ws vs -> List.length vs = List.length ws.
  Proof. intros ws vs H. symmetry. eapply f2_len. exact H. Qed.

  Lemma undouble : forall ws vs, Forall2 readw (double_list ws) vs -> exists us, Forall2 readw ws us.
  Proof.
    induction ws as [|w ws IH]; intros vs H; [exists []; constructor|]. cbn in H. inversion H as [|? v ? vs1 Hv H1]; subst. inversion H1 as [|? v' ? vs2 Hv' H2]; subst.
    destruct (IH _ H2) as (us & Hu). exists (v :: us). constructor; auto.
  Qed.

  Lemma unneg : forall neg, (forall e e', neg e = Ok e' -> word e' /\ exists v, prs e = Some v) -> forall ws r, double_and_neg_list neg ws = Ok r ->
    List.length r = 2 * List.length ws /\ Forall word r /\ exists us, Forall2 readw ws us.
  Proof.
    intros neg Hneg ws r H. unfold double_and_neg_list in H. destruct (rmap _ ws) as [ll|] eqn:E; [|discriminate H]. cbn [rbind] in H. injection H as <-.
    apply rmap_ok_Forall2 in E. induction E as [|w l ws ll Hw E IH]; [split; [reflexivity|]; split; [constructor|exists []; constructor]|].
    destruct (neg w) as [e'|] eqn:En; [|discriminate Hw]. cbn [rbind] in Hw. injection Hw as <-. destruct (Hneg _ _ En) as [We (v & Hv)].
    destruct IH as (L & W & us & Hu). cbn [List.concat app List.length]. split; [lia|]. split; [repeat constructor; auto; apply We|]. exists (v :: us). constructor; auto.
  Qed.

  Lemma double_len : forall l, List.length (double_list l) = 2 * List.length l.
  Proof. intros l. apply (dbl_length _ l). Qed.

  Lemma reads_concat : forall tss, Forall (fun ts => exists vs, Forall2 readw ts vs) tss -> exists d, Forall2 (Forall2 readw) tss d.
  Proof. intros tss H. induction H as [|ts tss (vs & Hv) H (d & Hd)]; [exists []; constructor|]. exists (vs :: d). constructor; auto. Qed.

  Lemma concat_reads : forall tss d, Forall2 (Forall2 readw) tss d -> Forall2 readw (List.concat tss) (List.concat d).
  Proof. intros tss d H. induction H; [constructor|]. cbn. apply Forall2_app; auto. Qed.

  (** The shape of the zone of a pair and what its acceptance tells about the files. *)
  Lemma pair_back : forall neg gt st i j z, (forall e e', neg e = Ok e' -> word e' /\ exists v, prs e = Some v) ->
    size_line gt i j -> 1 <= i -> 1 <= j -> pair_zone neg gt st = Ok z ->
    exists wx wy wz, lz_coords z = [wx; wy; wz] /\ Forall (Forall word) (lz_coords z) /\ List.length (lz_data z) = 8 /\ Forall (Forall word) (lz_data z) /\
      List.length (lz_links z) = lz_elements z /\ lz_links z = links i j /\
      (forall cx cy cz d, Forall2 readw wx cx -> Forall2 readw wy cy -> Forall2 readw wz cz -> Forall2 (Forall2 readw) (lz_data z) d ->
        lz_nodes z <= List.length cx -> lz_nodes z <= List.length cy -> lz_nodes z <= List.length cz -> (forall l, In l d -> lz_elements z <= List.length l) ->
        exists b, wb_i b = i /\ wb_j b = j /\ block_files gt st b).
  Proof.
    intros neg gt st i j z Hneg Hs Hi Hj H.
    assert (Es : read_sizes gt = Ok (Z.of_nat i, Z.of_nat j, 1%Z)).
    { destruct Hs as (l & s1 & s3 & s5 & El & E1 & E3 & E5 & I1 & I3 & I5).
      unfold read_sizes. rewrite (nth_error_nth _ _ _ El). change 1%Z with (Z.of_nat 1) at 1. change 3%Z with (Z.of_nat 3). change 5%Z with (Z.of_nat 5).
      rewrite (py_get_nat _ _ _ _ E1). cbn [rbind]. rewrite I1. cbn [rbind]. rewrite (py_get_nat _ _ _ _ E3). cbn [rbind]. rewrite I3. cbn [rbind].
      rewrite (py_get_nat _ _ _ _ E5). cbn [rbind]. rewrite I5. reflexivity. }
    unfold pair_zone in H. rewrite Es in H. cbn [rbind negb Z.eqb Pos.eqb] in H.
    replace ((Z.of_nat i <? 1)%Z || (Z.of_nat j <? 1)%Z) with false in H by (symmetry; apply orb_false_intro; apply Z.ltb_ge; lia).
    rewrite !Nat2Z.id in H. set (ge := leap_lines (skipn 6 (file_lines gt))) in *. set (se := leap_lines (skipn 6 (file_lines st))) in *.
    assert (Wg : forall a b, Forall word (slice ge a b)).
    { intros a b. apply Forall_forall. intros w I. apply (words_of (skipn 6 (file_lines gt))). unfold slice in I. apply first_in in I. apply skip_in in I. exact I. }
    assert (Ws : forall a b, Forall word (slice se a b)).
    { intros a b. apply Forall_forall. intros w I. apply (words_of (skipn 6 (file_lines st))). unfold slice in I. apply first_in in I. apply skip_in in I. exact I. }
    assert (Db : forall t, Forall word t -> Forall word (double_list t)).
    { intros t Ht. induction Ht; [constructor|]. cbn [double_list flat_map app]. constructor; [assumption|]. constructor; assumption. }
    unfold lazurit_block in H. rewrite Nat.mul_1_r in H. set (hec := (i - 1) * (j - 1)) in *. set (nc := i * j) in *.
    destruct (double_and_neg_list neg (slice se (5 * hec) (6 * hec))) as [d5|] eqn:E5; [|discriminate H]. cbn [rbind] in H.
    destruct (double_and_neg_list neg (slice se (6 * hec) (7 * hec))) as [d6|] eqn:E6; [|discriminate H]. cbn [rbind] in H.
    destruct (double_and_neg_list neg (slice se (7 * hec) (8 * hec))) as [d7|] eqn:E7; [|discriminate H]. cbn [rbind] in H.
    apply ok_inj' in H. subst z. cbn [lz_nodes lz_elements lz_coords lz_data lz_links].
    destruct (unneg neg Hneg _ _ E5) as (L5 & W5 & u5 & R5). destruct (unneg neg Hneg _ _ E6) as (L6 & W6 & u6 & R6). destruct (unneg neg Hneg _ _ E7) as (L7 & W7 & u7 & R7).
    eexists. eexists. eexists. split; [reflexivity|]. split; [repeat (constructor; [apply Wg|]); constructor|]. split; [reflexivity|].
    split; [repeat (constructor; [first [apply Db; apply Ws | assumption]|]); constructor|]. split; [apply links_length|]. split; [reflexivity|].
    intros cx cy cz d Rx Ry Rz Rd Lx Ly Lz Ld.
    apply f2_read_words in Rx as Lx'. apply f2_read_words in Ry as Ly'. apply f2_read_words in Rz as Lz'.
    pose proof (slice_len _ ge 0 nc) as B0. pose proof (slice_len _ ge nc (2 * nc)) as B1. pose proof (slice_len _ ge (2 * nc) (3 * nc)) as B2.
    apply f2_cons in Rd as (q0 & e0 & -> & Q0 & T0).
    apply f2_cons in T0 as (q1 & e1 & -> & Q1 & T1).
    apply f2_cons in T1 as (q2 & e2 & -> & Q2 & T2).
    apply f2_cons in T2 as (q3 & e3 & -> & Q3 & T3).
    apply f2_cons in T3 as (q4 & e4 & -> & Q4 & T4).
    apply f2_cons in T4 as (q5 & e5 & -> & Q5 & T5).
    apply f2_cons in T5 as (q6 & e6 & -> & Q6 & T6).
    apply f2_cons in T6 as (q7 & e7 & -> & Q7 & T7).
    apply f2_nil in T7 as ->.
    assert (Fu : forall v q, 2 * hec <= List.length q -> Forall2 readw (double_list (slice se (v * hec) (S v * hec))) q -> List.length (slice se (v * hec) (S v * hec)) = hec).
    { intros v q Hq Rq. apply f2_read_words in Rq. rewrite double_len in Rq. pose proof (slice_len _ se (v * hec) (S v * hec)). lia. }
    assert (Fn : forall v q r, 2 * hec <= List.length q -> Forall2 readw r q -> List.length r = 2 * List.length (slice se (v * hec) (S v * hec)) -> List.length (slice se (v * hec) (S v * hec)) = hec).
    { intros v q r Hq Rq Lr. apply f2_read_words in Rq. pose proof (slice_len _ se (v * hec) (S v * hec)). lia. }
    assert (S0 : slice se 0 hec = slice se (0 * hec) (1 * hec)) by (f_equal; lia). assert (S1 : slice se hec (2 * hec) = slice se (1 * hec) (2 * hec)) by (f_equal; lia).
    rewrite S0 in Q0. rewrite S1 in Q1.
    assert (G0 : slice ge 0 nc = slice ge (0 * nc) (1 * nc)) by (f_equal; lia). assert (G1 : slice ge nc (2 * nc) = slice ge (1 * nc) (2 * nc)) by (f_equal; lia).
    assert (Lg : forall v, v < 3 -> List.length (slice ge (v * nc) (S v * nc)) = nc).
    { intros v Hv. destruct v as [|[|[|v]]]; [rewrite <- G0|rewrite <- G1| |lia]; lia. }
    assert (Lq : forall q, In q [q0; q1; q2; q3; q4; q5; q6; q7] -> 2 * hec <= List.length q) by exact Ld.
    assert (Ls : forall v, v < 8 -> List.length (slice se (v * hec) (S v * hec)) = hec).
    { intros v Hv. destruct v as [|[|[|[|[|[|[|[|v]]]]]]]]; [| | | | | | | |lia];
        [apply (Fu 0 q0)|apply (Fu 1 q1)|apply (Fu 2 q2)|apply (Fu 3 q3)|apply (Fu 4 q4)|apply (Fn 5 q5 d5)|apply (Fn 6 q6 d6)|apply (Fn 7 q7 d7)]; try assumption;
        apply Lq; cbn [In]; tauto. }
    destruct (undouble _ _ Q0) as (u0 & R0). destruct (undouble _ _ Q1) as (u1 & R1). destruct (undouble _ _ Q2) as (u2 & R2).
    destruct (undouble _ _ Q3) as (u3 & R3). destruct (undouble _ _ Q4) as (u4 & R4).
    assert (Lu : forall v u, v < 8 -> Forall2 readw (slice se (v * hec) (S v * hec)) u -> List.length u = hec).
    { intros v u Hv Ru. apply f2_read_words in Ru. rewrite Ru. apply Ls. exact Hv. }
    exists (WBlock i j cx cy cz [u0; u1; u2; u3; u4; u5; u6; u7]). split; [reflexivity|]. split; [reflexivity|].
    split; [|split; [exact Hs|split]]; cbn [wb_i wb_j wb_x wb_y wb_z wb_d wb_cells].
    - unfold whole_block. cbn [wb_i wb_j wb_x wb_y wb_z wb_d wb_cells]. fold nc. fold hec.
      split; [exact Hi|]. split; [exact Hj|]. split; [lia|]. split; [lia|]. split; [lia|]. split; [reflexivity|].
      unfold wb_cells. cbn [wb_i wb_j]. fold hec. intros l I.
      destruct I as [<-|[<-|[<-|[<-|[<-|[<-|[<-|[<-|[]]]]]]]]];
        [apply (Lu 0)|apply (Lu 1)|apply (Lu 2)|apply (Lu 3)|apply (Lu 4)|apply (Lu 5)|apply (Lu 6)|apply (Lu 7)]; try assumption; lia.
    - exists (slice ge 0 nc ++ slice ge nc (2 * nc) ++ slice ge (2 * nc) (3 * nc)), (skipn (3 * nc) ge). split.
      + fold (leap_lines (skipn 6 (file_lines gt))). fold ge. rewrite G0, G1. pose proof (slices_app _ 3 ge nc Lg) as E. cbn [seq map List.concat] in E. rewrite app_nil_r in E. exact E.
      + apply Forall2_app; [assumption|]. apply Forall2_app; assumption.
    - exists (List.concat (map (fun v => slice se (v * hec) (S v * hec)) (seq 0 8))), (skipn (8 * hec) se). split.
      + fold (leap_lines (skipn 6 (file_lines st))). fold se. apply slices_app. exact Ls.
      + apply concat_reads. cbn [seq map]. repeat (constructor; [assumption|]). constructor.
  Qed.

  Lemma zone_whole : forall name z i j, (forall x, In x name -> x <> eqsign /\ x <> nl /\ x <> cr) ->
    Forall (Forall word) (lz_coords z) -> Forall (Forall word) (lz_data z) -> lz_links z = links i j ->
    forall l, In l (zone_text name z) -> whole_line l.
  Proof.
    intros name z i j Hname Wc Wd El l I. unfold zone_text in I. rewrite !in_app_iff in I. destruct I as [I|[I|[I|I]]].
    - cbn [In] in I.
      repeat (destruct I as [<-|I]; [first [apply plain_line; apply lit_ok; vm_compute; reflexivity | idtac]|]); [| | |destruct I].
      + change (lit "ZONE T=" ++ [dquote] ++ name ++ [dquote; nl]) with (lit "ZONE T=" ++ [dquote] ++ name ++ [dquote] ++ [nl]).
        rewrite !app_assoc. apply plain_line. repeat apply plain_app; try (apply lit_ok; vm_compute; reflexivity).
        intros c Ic. destruct (Hname c Ic) as (_ & ? & ?). auto.
      + rewrite app_assoc. apply plain_line. apply plain_app; [apply lit_ok; vm_compute; reflexivity|apply plain_nat].
      + rewrite app_assoc. apply plain_line. apply plain_app; [apply lit_ok; vm_compute; reflexivity|apply plain_nat].
    - apply in_map_iff in I as (ws & <- & I). apply wl_whole. rewrite Forall_forall in Wc. auto.
    - apply in_map_iff in I as (ws & <- & I). apply wl_whole. rewrite Forall_forall in Wd. auto.
    - apply in_map_iff in I as (t & <- & I). rewrite El in I. apply (low_ok _ _ _ I).
  Qed.

  Lemma head_back : forall ls evs, file_form [] (lazurit_head ++ ls) evs -> exists evs', file_form vars11 ls evs'.
  Proof.
    intros ls evs H. unfold lazurit_head in H. cbn [app] in H.
    destruct head_title as (Th & Tt & _). destruct head_vars as (Vh & Vt & Vv & s & Vs & Ev).
    inversion H as [|? ? ? ? Hh H1|? ? ? ? ? Ht _|? ? ? ? ? Hv _|? ? ? zr r evs' Hz _ _]; subst;
      [|destruct Ht as (Ht & _); exfalso; apply Ht; reflexivity|destruct Hv as (Hv & _); exfalso; apply Hv; reflexivity|destruct Hz as (Hz & _); exfalso; apply Hz; reflexivity].
    clear H Hh. inversion H1 as [|? ? ? ? Hh _|? ? ? ? ? Ht H2|? ? ? ? ? Hv _|? ? ? zr r evs' Hz _ _]; subst;
      [exfalso; apply Th; exact Hh| |destruct Hv as (_ & Hv & _); exfalso; apply (eq_true_false_abs _ Tt); exact Hv|destruct Hz as (_ & Hz & _); exfalso; apply (eq_true_false_abs _ Tt); exact Hz].
    clear H1 Ht. inversion H2 as [|? ? ? ? Hh _|? ? ? ? ? Ht _|? ? ? vs' ? Hv H3|? ? ? zr r evs' Hz _ _]; subst;
      [exfalso; apply Vh; exact Hh|destruct Ht as (_ & Ht & _); exfalso; apply (eq_true_false_abs _ Ht); exact Vt| |destruct Hz as (_ & _ & Hz & _); exfalso; apply (eq_true_false_abs _ Vv); exact Hz].
    destruct Hv as (_ & _ & _ & s' & Vs' & Ev'). unfold last_part in Vs, Vs'. assert (Q : s' = s) by (etransitivity; [exact Vs'|symmetry; exact Vs]). clear Vs Vs'. subst s'. rewrite <- Ev in Ev'. subst vs'. eauto.
  Qed.

  Lemma pairs_back : forall neg dir bs ll gt st si sj, (forall e e', neg e = Ok e' -> word e' /\ exists v, prs e = Some v) -> NoDup (map fst dir) ->
    (forall s, In s bs -> sized_pair dir s (gt s) (st s) (si s) (sj s)) ->
    rmap (fun p => do gtext <- open_text dir (fst p); do stext <- open_text dir (snd p); do z <- pair_zone neg gtext stext;
        Ok (zone_text (zone_title (fst p)) z)) (map (fun s => (grid_name s, solution_name s)) bs) = Ok ll ->
    (forall l, In l (List.concat ll) -> whole_line l) /\
    forall evs, file_form vars11 (List.concat ll) evs ->
    forall s, In s bs -> exists b, wb_i b = si s /\ wb_j b = sj s /\ block_files (gt s) (st s) b.
  Proof.
    intros neg dir bs ll gt st si sj Hneg Nd. revert ll. induction bs as [|s bs IH]; intros ll H E.
    - injection E as <-. split; [intros l []|intros evs _ s []].
    - destruct (H s (or_introl eq_refl)) as (Ig & Is & Sz & Hi & Hj & name & Nz & Nc). cbn [map rmap fst snd] in E.
      unfold open_text at 1 2 in E. rewrite (dget_one _ _ _ Nd Ig), (dget_one _ _ _ Nd Is) in E. cbn [rbind] in E.
      destruct (pair_zone neg (gt s) (st s)) as [z|] eqn:Ez; [|discriminate E]. cbn [rbind] in E. rewrite (title_ok _ _ Nz) in E.
      destruct (rmap _ (map (fun s => (grid_name s, solution_name s)) bs)) as [ll'|] eqn:El; [|discriminate E]. cbn [rbind] in E. apply ok_inj' in E. subst ll.
      destruct (IH ll' ltac:(intros x I; apply H; right; auto) eq_refl) as (W & B).
      destruct (pair_back neg (gt s) (st s) (si s) (sj s) z Hneg Sz Hi Hj Ez) as (wx & wy & wz & Ec & Wc & L8 & Wd & Ll & Lk & K).
      split.
      + intros l I. cbn [List.concat] in I. apply in_app_iff in I as [I|I]; [|auto]. eapply zone_whole; eauto.
      + intros evs Hf x I. cbn [List.concat] in Hf.
        destruct (zone_back name z (List.concat ll') evs wx wy wz Nc Ec Wc L8 Wd Ll Hf) as (evs' & cx & cy & cz & d & Hf' & Rx & Ry & Rz & Rd & Lx & Ly & Lz & Ld).
        destruct I as [<-|I]; [|eapply B; eauto]. eapply K; eauto.
  Qed.

  Theorem lazurit_only : forall neg dir bs gt st si sj h out h', (forall e e', neg e = Ok e' -> word e' /\ exists v, prs e = Some v) -> NoDup (map fst dir) ->
    Permutation (filter (contains (lit ".TEC")) (map fst dir)) (map grid_name bs ++ map solution_name bs) ->
    (forall s, In s bs -> sized_pair dir s (gt s) (st s) (si s) (sj s)) ->
    lazurit_to_crystal neg dir h = (Ok out, h') ->
    forall s, In s bs -> exists b, wb_i b = si s /\ wb_j b = sj s /\ block_files (gt s) (st s) b.
  Proof.
    intros neg dir bs gt st si sj h out h' Hneg Nd P H E s Is.
    unfold lazurit_to_crystal in E. rewrite (sorted_pairs bs _ P), bind_lift_ok in E. cbv beta in E.
    destruct (pairs_text neg dir (map (fun b => (grid_name b, solution_name b)) (sort_str bs))) as [ls|e] eqn:Ep; [|discriminate E].
    rewrite bind_lift_ok in E. cbv beta in E. rewrite bind_modify in E. cbv beta in E.
    destruct (load true (List.concat (lazurit_head ++ ls)) (new_grid h)) as [r h1] eqn:El.
    unfold bind at 1 in E. rewrite El in E. destruct r as [[]|e]; [|discriminate E]. clear E.
    destruct (load_form_main _ _ _ _ El) as (evs & Hf & _).
    unfold pairs_text in Ep. destruct (rmap _ _) as [ll|] eqn:Er; [|discriminate Ep]. cbn [rbind] in Ep. apply ok_inj' in Ep. subst ls.
    destruct (pairs_back neg dir (sort_str bs) ll gt st si sj Hneg Nd) as (W & B); [|exact Er|].
    { intros x I. apply H. eapply Permutation_in; [apply sort_str_perm|exact I]. }
    rewrite file_lines_concat in Hf; [|intros l I; apply in_app_iff in I as [I|I]; [apply head_whole|]; auto].
    destruct (head_back _ _ Hf) as (evs' & Hf'). apply (B _ Hf'). eapply Permutation_in; [apply Permutation_sym; apply sort_str_perm|exact Is].
  Qed.

  (** ** A third size other than 1 *)

  Theorem not_flat : forall neg dir bs s gt k, NoDup (map fst dir) ->
    Permutation (filter (contains (lit ".TEC")) (map fst dir)) (map grid_name bs ++ map solution_name bs) -> In s bs -> In (grid_name s, gt) dir ->
    (exists l s5, nth_error (file_lines gt) 3 = Some l /\ nth_error (split_ws l) 5 = Some s5 /\ py_int s5 = Ok k) -> k <> 1%Z ->
    forall h, exists e, lazurit_to_crystal neg dir h = (Raise e, h).
  Proof.
    intros neg dir bs s gt k Nd P Is Ig (l & s5 & El & E5 & I5) Hk h.
    unfold lazurit_to_crystal. rewrite (sorted_pairs bs _ P), bind_lift_ok. cbv beta.
    destruct (pairs_text neg dir (map (fun b => (grid_name b, solution_name b)) (sort_str bs))) as [ls|e] eqn:Ep; [|exists e; reflexivity].
    exfalso. unfold pairs_text in Ep. destruct (rmap _ _) as [ll|] eqn:Er; [|discriminate Ep]. apply rmap_ok_Forall2 in Er. clear Ep.
    assert (I : In s (sort_str bs)) by (eapply Permutation_in; [apply Permutation_sym; apply sort_str_perm|exact Is]). clear P Is.
    revert ll Er. induction (sort_str bs) as [|x xs IH]; intros ll Er; [destruct I|]. cbn [map] in Er. apply f2_cons in Er as (y & ys & -> & Ey & Er).
    destruct I as [->|I]; [|eapply IH; eauto]. clear IH Er. cbn [fst snd] in Ey. unfold open_text at 1 in Ey. rewrite (dget_one _ _ _ Nd Ig) in Ey. cbn [rbind] in Ey.
    destruct (open_text dir (solution_name s)) as [stx|]; [|discriminate Ey]. cbn [rbind] in Ey.
    destruct (pair_zone neg gt stx) as [z|] eqn:Ez; [|discriminate Ey]. clear Ey. unfold pair_zone, read_sizes in Ez. rewrite (nth_error_nth _ _ _ El) in Ez.
    destruct (py_get (split_ws l) 1) as [s1|]; [|discriminate Ez]. cbn [rbind] in Ez. destruct (py_int s1) as [zi|]; [|discriminate Ez]. cbn [rbind] in Ez.
    destruct (py_get (split_ws l) 3) as [s3|]; [|discriminate Ez]. cbn [rbind] in Ez. destruct (py_int s3) as [zj|]; [|discriminate Ez]. cbn [rbind] in Ez.
    change 5%Z with (Z.of_nat 5) in Ez. rewrite (py_get_nat _ _ _ _ E5) in Ez. cbn [rbind] in Ez. rewrite I5 in Ez. cbn [rbind] in Ez.
    destruct (Z.eqb_spec k 1) as [->|]; [congruence|]. discriminate Ez.
  Qed.
End LazuritBack.
