(** Proofs about the program drops.py as a whole. *)

From Coq Require Import ZArith Reals Ascii String Bool Lia List.
From Verif Require Import Py PyLemmas Heap HeapLemmas GridModel GridSpec Mpi MpiSpec GridIO FileSpec StoreSpec LoadMain RoundTrip MergeProofs
  PlainProofs SamplesStore Geom Drops DropsSpec DropsMore DropsText DropsTextSpec DropsTextProofs Programs ProgramsSpec ProgramsProofs.
Import ListNotations.
Open Scope list_scope.
Open Scope nat_scope.

(** The data of faces stay dictionaries. *)
Lemma drops_dicts : forall fs ds d dt thr n gs trs, Forall dict_ok fs -> drops fs ds d dt thr n = Ok (gs, trs) -> Forall dict_ok gs.
Proof.
  intros fs ds d dt thr n gs trs D H. unfold drops in H.
  destruct (triangles_cloud (get_triangles_list fs)) as [c|]; [|discriminate]. cbn [rbind] in H.
  destruct (make_space ds) as [air|]; [|discriminate]. cbn [rbind] in H.
  destruct (drops_loop air c d dt thr n (seq 0 (List.length fs)) (fs, [])) as [[hs trs']|] eqn:El; [|discriminate]. cbn [rbind fst snd] in H.
  destruct (convert_grid_stall_to_check_point hs) as [ms|] eqn:Em; [|discriminate]. cbn [rbind] in H. injection H as <- <-.
  pose proof (loop_upto air c d dt thr n fs _ _ _ _ (upto_0 air c d dt thr n fs) El) as U.
  destruct U as [U1 _ _ _ _]. cbn [fst snd] in *.
  assert (Dh : Forall dict_ok hs).
  { clear -U1 D. induction U1; constructor; inversion D; subst; auto. apply H; auto. }
  pose proof (convert_inv hs ms Dh Em) as F2. pose proof (clean_ok ms) as F3.
  assert (Dm : Forall dict_ok ms). { clear -F2. induction F2; constructor; auto. apply H. }
  clear -F3 Dm. induction F3; constructor; inversion Dm; subst; auto. apply H; auto.
Qed.

Lemma keys_map : forall V W (f : V -> W) (d : dict str V), keys (map (fun kv => (fst kv, f (snd kv))) d) = keys d.
Proof. intros. unfold keys. rewrite map_map. reflexivity. Qed.
Lemma dget_map : forall V W (f : V -> W) (d : dict str V) k,
  dget str_dec (map (fun kv => (fst kv, f (snd kv))) d) k = match dget str_dec d k with Some v => Some (f v) | None => None end.
Proof. intros V W f d k. induction d as [|[k' v] d IH]; [reflexivity|]. cbn [map dget fst snd]. destruct (str_dec k k'); auto. Qed.
Lemma dget_none : forall V (d : dict str V) k, dget str_dec d k = None <-> ~ In k (keys d).
Proof.
  intros V d k. induction d as [|[k' v] d IH]; [cbn; tauto|]. cbn [dget keys map fst]. destruct (str_dec k k') as [->|N].
  - split; [discriminate|]. intros K. exfalso. apply K. left. auto.
  - rewrite IH. unfold keys. cbn. intuition.
Qed.

Lemma last_one : forall (P : nat -> Prop) m, (forall i, P i -> i < m) -> (exists i, P i) -> exists i, P i /\ forall j, P j -> j <= i.
Proof.
  intros P m. induction m as [|m IH]; intros B (i & Hi); [specialize (B i Hi); lia|].
  destruct (Classical_Prop.classic (P m)) as [K|K].
  - exists m. split; [exact K|]. intros j Hj. specialize (B j Hj). lia.
  - apply IH; [|eauto]. intros j Hj. specialize (B j Hj). assert (j <> m) by (intros ->; contradiction). lia.
Qed.
Lemma flat_map_ext_in' : forall A B (f g : A -> list B) l, (forall x, In x l -> f x = g x) -> flat_map f l = flat_map g l.
Proof. intros A B f g l H. induction l as [|x l IH]; [reflexivity|]. cbn. rewrite H by (left; auto). f_equal. apply IH. intros; apply H; right; auto. Qed.

Lemma eq_none_absurd : forall A (o : option A) x, o = Some x -> o = None -> False.
Proof. intros A o x E1 E2. congruence. Qed.

Section ProgramsDrops.
  Context {F : FloatOps}.
  Variables (real : val -> R) (near : R -> val).

  Lemma put_other : forall (l : list (nat * dface)) (m : nat -> dict str val) f, ~ In f (map fst l) ->
    fold_left (fun m p => upd m (fst p) (map (fun kv => (fst kv, near (snd kv))) (df_data (snd p)))) l m f = m f.
  Proof.
    induction l as [|p l IH]; intros m f H; [reflexivity|]. cbn [fold_left]. rewrite IH by (intros K; apply H; right; auto).
    unfold upd. destruct (Nat.eqb_spec f (fst p)) as [->|]; [|auto]. exfalso. apply H. left. auto.
  Qed.
  Lemma put_nth : forall fs gs (m : nat -> dict str val) i f g, NoDup fs -> nth_error fs i = Some f -> nth_error gs i = Some g ->
    fold_left (fun m p => upd m (fst p) (map (fun kv => (fst kv, near (snd kv))) (df_data (snd p)))) (combine fs gs) m f =
    map (fun kv => (fst kv, near (snd kv))) (df_data g).
  Proof.
    induction fs as [|x fs IH]; intros [|y gs] m i f g N Hf Hg; try (destruct i; discriminate).
    apply NoDup_cons_iff in N as [N1 N2]. cbn [combine fold_left fst snd]. destruct i as [|i].
    - cbn in Hf, Hg. injection Hf as ->. injection Hg as ->. rewrite put_other.
      + unfold upd. rewrite Nat.eqb_refl. auto.
      + intros K. apply in_map_iff in K as ([a b] & <- & K). apply in_combine_l in K. contradiction.
    - apply (IH _ _ i); auto.
  Qed.

  Definition surface_of (h : heap) : list dface := map (dface_of real h) (g_faces h).

  (** drops.py on its files. *)
  Lemma drops_files_ok : forall fl fm d dt thr n text air h h1 evs ds gs trs, faithful_numbers -> (forall v, near (real v) = v) -> real val0 = 0%R ->
    load true text (new_grid h) = (Ok tt, h1) -> file_form [] (file_lines text) evs -> no_degenerate (zones_of evs) -> g_faces h1 <> [] ->
    air_form fl air ds -> drops (surface_of h1) ds d dt thr n = Ok (gs, trs) ->
    exists out h' c sp, drops_files real near fl fm d dt thr n text air h = (Ok (out, trajectories_file fm Z.of_nat trs), h') /\
    triangles_cloud (get_triangles_list (surface_of h1)) = Ok c /\ make_space ds = Ok sp /\
    forall h0, exists h2 vars value, load true out h0 = (Ok tt, h2) /\ same_surface (n_p h1) vars value h1 h2 /\
      (forall k, In k vars <-> In k [lit "T"; lit "Hw"; lit "Hi"] \/
         (~ is_stall k /\ In k (grid_vars h1)) \/ (k = lit "MImp2" /\ exists i, lands sp c d dt thr n (surface_of h1) i 0)) /\
      forall j f, nth_error (g_faces h1) j = Some f ->
        (forall k, In k [lit "T"; lit "Hw"; lit "Hi"] -> value f k = near 0%R) /\
        (forall k, ~ is_stall k -> ~ In k [lit "T"; lit "Hw"; lit "Hi"] -> k <> lit "MImp2" -> value f k = var_value h1 f k) /\
        (forall i fi, nth_error (g_faces h1) i = Some fi -> lands sp c d dt thr n (surface_of h1) i j ->
           (forall i', lands sp c d dt thr n (surface_of h1) i' j -> i' <= i) ->
           value f (lit "MImp2") = near (real (var_value h1 fi (lit "Stall")) / area (get_triangle (dface_of real h1 f) j))%R) /\
        ((forall i, ~ lands sp c d dt thr n (surface_of h1) i j) -> value f (lit "MImp2") = var_value h1 f (lit "MImp2")).
  Proof.
    intros fl fm d dt thr n text air h h1 evs ds gs trs Hn Hr H0 E Hf Nd Hne Ha Ed.
    destruct (loaded_good _ _ _ _ E Hf Nd) as (Ok1 & Zl & Nb & Nm).
    assert (W : writable h1).
    { apply (loaded_writable _ _ _ _ E Hf Hne). apply (loaded_names _ _ _ _ _ E Hf). right. intros c []. }
    destruct (loaded_names _ _ _ _ _ E Hf) as (_ & Hk & _).
    assert (Df : Forall dict_ok (surface_of h1)).
    { apply Forall_forall. intros x Hx. unfold surface_of in Hx. apply in_map_iff in Hx as (f & <- & Hx). unfold dict_ok, dface_of.
      destruct (three (f_nodes h1 f)) as [[a b] c]. cbn [df_data]. rewrite keys_map. apply Hk. exact Hx. }
    pose proof (drops_dicts _ _ _ _ _ _ _ _ Df Ed) as Dg.
    destruct (drops_ok _ _ _ _ _ _ _ _ Df Ed) as (c & sp & Ec & Es & Lg & Wet & _ & Each).
    pose proof Ok1 as [T Zo]. pose proof (t_faces_nd h1 T) as Nf.
    set (dd := fold_left (fun m p => upd m (fst p) (map (fun kv => (fst kv, near (snd kv))) (df_data (snd p)))) (combine (g_faces h1) gs) (f_data h1)).
    assert (Lf : List.length (surface_of h1) = List.length (g_faces h1)) by apply map_length.
    assert (Gd : forall j f, nth_error (g_faces h1) j = Some f -> exists g, nth_error gs j = Some g /\
       dd f = map (fun kv => (fst kv, near (snd kv))) (df_data g) /\ nth_error (surface_of h1) j = Some (dface_of real h1 f)).
    { intros j f Hj. assert (j < List.length gs) by (rewrite Lg, Lf; apply nth_error_Some; congruence).
      destruct (nth_error gs j) as [g|] eqn:Eg; [|apply nth_error_None in Eg; lia]. exists g. split; [auto|]. split.
      - apply (put_nth _ _ _ j); auto.
      - unfold surface_of. rewrite nth_error_map, Hj. reflexivity. }
    assert (Dv : forall h f k, dget str_dec (df_data (dface_of real h f)) k = match dget str_dec (f_data h f) k with Some v => Some (real v) | None => None end).
    { intros hh f k. unfold dface_of. destruct (three (f_nodes hh f)) as [[a b] c']. cbn [df_data]. apply dget_map. }
    set (hm := set_f_data (set_n_p h1 (n_p h1)) dd).
    set (vars := grid_vars hm).
    assert (Mi : lit "MImp2" = kMImp2) by reflexivity.
    (* the variables *)
    assert (Hv : NoDup vars /\ forall k, In k vars <-> In k [lit "T"; lit "Hw"; lit "Hi"] \/
         (~ is_stall k /\ In k (grid_vars h1)) \/ (k = lit "MImp2" /\ exists i, lands sp c d dt thr n (surface_of h1) i 0)).
    { unfold vars, grid_vars. change (g_faces hm) with (g_faces h1). change (f_data hm) with dd.
      destruct (g_faces h1) as [|f0 fs] eqn:Ef; [congruence|]. rewrite <- Ef in *.
      destruct (Gd 0 f0) as (g & Hg & Eg & Hs); [rewrite Ef; reflexivity|]. rewrite Eg, keys_map. split.
      - rewrite Forall_forall in Dg. apply (Dg g). eapply nth_error_In; eauto.
      - destruct (Each 0 _ g Hs Hg) as (_ & C1 & C2 & C3 & C4 & C5). change kMImp2 with (lit "MImp2") in C3, C4, C5.
        assert (Dec : forall V (dc : dict str V) k, In k (keys dc) <-> dget str_dec dc k <> None).
        { intros V dc k. rewrite dget_none. destruct (in_dec str_dec k (keys dc)); tauto. }
        intros k. rewrite !Dec. destruct (in_dec str_dec k [lit "T"; lit "Hw"; lit "Hi"]) as [A|A].
        + rewrite (C2 k A). split; [auto|]. intros _. discriminate.
        + destruct (in_dec str_dec k [lit "Stall"; lit "StallD"; lit "StallVX"; lit "StallVY"; lit "StallVZ"]) as [B|B].
          * rewrite (C1 k B). split; [congruence|]. intros [K|[[K _]|[K _]]]; [contradiction|exfalso; apply K; exact B|].
            subst k. exfalso. cbn in B. repeat (destruct B as [B|B]; [discriminate|]). exact B.
          * destruct (str_dec k (lit "MImp2")) as [->|Nk].
            -- destruct (Classical_Prop.classic (exists i, lands sp c d dt thr n (surface_of h1) i 0)) as [L|L].
               ++ split; [auto|]. intros _.
                  destruct (last_one (fun i => lands sp c d dt thr n (surface_of h1) i 0) (List.length (surface_of h1))) as (i & Hi & Hm); [|exact L|].
                  { intros i (fx & tr & Hx & _). apply nth_error_Some. congruence. }
                  destruct Hi as (fx & tr & Hx & Hi). destruct (C4 i fx Hx) as (_ & C6); [exists fx, tr; auto|exact Hm|].
                  intros Q. exact (eq_none_absurd _ _ _ C6 Q).
               ++ rewrite C5 by (intros i K; apply L; eauto). rewrite Dv.
                  split; [|intros [K|[[_ K]|[_ K]]]; [contradiction| |contradiction]].
                  ** intros K. right. left. split; [exact B|]. destruct (dget str_dec (f_data h1 f0) (lit "MImp2")); [discriminate|congruence].
                  ** destruct (dget str_dec (f_data h1 f0) (lit "MImp2")); [discriminate|congruence].
            -- rewrite (C3 k B A Nk), Dv.
               split; [|intros [K|[[_ K]|[K _]]]; [contradiction| |contradiction]].
               ** intros K. right. left. split; [exact B|]. destruct (dget str_dec (f_data h1 f0) k); [discriminate|congruence].
               ** destruct (dget str_dec (f_data h1 f0) k); [discriminate|congruence]. }
    destruct Hv as [Hv1 Hv2].
    destruct W as (W1 & W2 & W3 & W4 & W5).
    destruct (moved_again h1 (n_p h1) dd Hn Ok1 Zl Nb (conj W1 (conj W2 (conj W3 (conj W4 W5))))) as (out & Eo & K).
    { intros a b Hin Hin' Er. destruct Nm as (M1 & _ & M3). apply (NoDup_map_inj _ _ (n_rc h1) (g_nodes h1)); auto. rewrite !M3 by auto. exact Er. }
    { fold hm vars. intros k Hkv. apply Hv2 in Hkv as [K|[[_ K]|[-> _]]].
      - apply plain_varb_ok. cbn in K. destruct K as [<-|[<-|[<-|[]]]]; vm_compute; reflexivity.
      - auto.
      - apply plain_varb_ok. vm_compute. reflexivity. }
    { exact Hv1. }
    fold hm in Eo, K. fold vars in K.
    assert (Eh : put_data near gs h1 = hm) by (unfold put_data, hm; fold dd; destruct h1; reflexivity).
    exists out, hm, c, sp. split; [|split; [exact Ec|split; [exact Es|]]].
    - unfold drops_files. rewrite bind_modify, (bind_run _ _ _ _ _ _ _ E), bind_gets, (read_air_ok fl air ds Ha _ (le_n _)), bind_lift_ok.
      change (map (dface_of real h1) (g_faces h1)) with (surface_of h1). rewrite Ed, bind_lift_ok, bind_modify, bind_gets. cbn [fst snd].
      rewrite Eh, Eo, bind_lift_ok. unfold ret. f_equal. f_equal. f_equal.
      unfold trajectories_file. f_equal. apply flat_map_ext_in'. intros [i tr] Hi. cbn [fst snd]. f_equal. f_equal. f_equal.
      assert (Hi' : In i (map fst trs)) by (apply in_map_iff; exists (i, tr); auto). rewrite Wet in Hi'. apply filter_In in Hi' as [Hi' _].
      apply in_seq in Hi'. rewrite Lf in Hi'. destruct (load_result _ _ _ _ _ E Hf) as [Ld _].
      destruct (nth_error (g_faces h1) i) as [f|] eqn:Ei; [|apply nth_error_None in Ei; lia].
      rewrite (nth_error_nth _ _ _ Ei). apply (ld_num _ _ _ Ld). exact Ei.
    - intros h0. destruct (K h0) as (h2 & E2 & S). exists h2, vars. eexists. split; [exact E2|]. split; [exact S|]. split; [exact Hv2|].
      intros j f Hj. cbv beta. destruct (Gd j f Hj) as (g & Hg & Eg & Hs).
      destruct (Each j _ g Hs Hg) as (_ & C1 & C2 & C3 & C4 & C5). change kMImp2 with (lit "MImp2") in C3, C4, C5. rewrite Eg. split; [|split; [|split]].
      + intros k Hk'. rewrite dget_map, (C2 k Hk'). reflexivity.
      + intros k A B Nk. rewrite dget_map, (C3 k A B Nk), Dv. unfold var_value.
        destruct (dget str_dec (f_data h1 f) k); [rewrite Hr|]; reflexivity.
      + intros i fi Hi L Mx. destruct (Gd i fi Hi) as (gi & _ & _ & Hsi). destruct (C4 i _ Hsi L Mx) as (_ & C6).
        rewrite dget_map, C6. f_equal. f_equal. unfold getitem, var_value. rewrite Dv.
        change kStall with (lit "Stall"). destruct (dget str_dec (f_data h1 fi) (lit "Stall")); [reflexivity|rewrite H0; reflexivity].
      + intros L. rewrite dget_map, (C5 L), Dv. unfold var_value. destruct (dget str_dec (f_data h1 f) (lit "MImp2")); [rewrite Hr|]; reflexivity.
  Qed.
End ProgramsDrops.
