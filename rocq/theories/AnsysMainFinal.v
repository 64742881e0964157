(** Proofs about the program ansys_to_crystal.py as a whole: the stored file. *)

From Coq Require Import ZArith Reals Bool List Lia String Ascii.
From Verif Require Import Py PyLemmas Heap HeapLemmas GridModel GridSpec DecompProofs Mpi MpiSpec MpiProofs
  GridIO FileSpec StoreSpec StoreProofs RoundTrip LoadMain LoadProps SamplesStore PlainProofs ProgramsProofs
  TextLemmas Geom Convert ConvertSpec Ansys AnsysSpec AnsysExportSpec AnsysMain AnsysMainSpec AnsysMainProofs.
Import ListNotations.
Open Scope list_scope.
Open Scope nat_scope.

Section Final.
  Context {F : FloatOps}.

  Lemma dict_by_keys : forall V (vs : list str) (row : list V) (d : dict str V), NoDup vs -> List.length row = List.length vs ->
    keys d = vs -> (forall k, In k vs -> dget str_dec d k = dget str_dec (combine vs row) k) -> d = combine vs row.
  Proof.
    intros V vs row d N L E H. subst vs. revert row L N H. unfold keys. induction d as [|[k x] d IH]; intros row L N H; cbn [map] in *; [reflexivity|].
    destruct row as [|y row]; [discriminate|]. cbn [combine]. inversion N as [|? ? Hk N']; subst.
    assert (y = x) as ->.
    { specialize (H k (or_introl eq_refl)). cbn in H. destruct (str_dec k k); congruence. }
    f_equal. apply IH; auto. intros k' I. specialize (H k' (or_intror I)). cbn [dget combine fst snd] in H.
    destruct (str_dec k' k) as [->|]; [contradiction|]. exact H.
  Qed.

  (** A grid loaded from a file whose zones have the same variables, stored and loaded again,
      holds the zones of the first file. *)
  Lemma zones_again : forall text h h1 evs vs, faithful_numbers -> load true text (new_grid h) = (Ok tt, h1) ->
    file_form [] (file_lines text) evs -> no_degenerate (zones_of evs) -> g_faces h1 <> [] -> NoDup vs ->
    (forall zr, In zr (zones_of evs) -> zr_vars zr = vs /\ forall row, In row (zr_data zr) -> List.length row = List.length vs) ->
    exists out, store h1 = Ok out /\ forall h0, exists h2, load true out h0 = (Ok tt, h2) /\ grid_ok h2 /\ holds_zones (zones_of evs) h2.
  Proof.
    intros text h h1 evs vs Hn E Hf Nd Hne Nv Hvs. destruct (loaded_good _ _ _ _ E Hf Nd) as (Ok1 & Zl & Nb & Nm).
    destruct (load_contents_main _ _ _ _ _ E Hf) as ((Lz & Ef & Hz) & Zo & _).
    assert (W : writable h1).
    { apply (loaded_writable _ _ _ _ E Hf Hne). apply (loaded_names _ _ _ _ _ E Hf). right. intros c []. }
    destruct (round_trip h1 h Hn Ok1 Zl Nb Nm W) as (out & _ & Es & _). exists out. split; [exact Es|].
    intros h0. destruct (round_trip h1 h0 Hn Ok1 Zl Nb Nm W) as (out' & h2 & Es' & E2 & Sc & Ok2 & Zl2 & Nm2 & _).
    rewrite Es in Es'. injection Es' as <-. exists h2. split; [exact E2|]. split; [exact Ok2|].
    destruct (load_form_main _ _ _ _ E2) as (evs2 & Hf2 & _). destruct (load_contents_main _ _ _ _ _ E2 Hf2) as ((Lz2 & Ef2 & Hz2) & _ & _).
    destruct Sc as (_ & Lzz & _ & _ & Sz).
    assert (Data : forall i z zr k f row, nth_error (g_zones h1) i = Some z -> nth_error (zones_of evs) i = Some zr -> nth_error (z_faces h1 z) k = Some f ->
      nth_error (zr_data zr) k = Some row -> f_data h1 f = combine vs row /\ List.length row = List.length vs).
    { intros i z zr k f row Ez Er Ek Erow. destruct (Hz _ _ _ Ez Er) as (_ & _ & K). destruct (K _ _ Ek) as (_ & row' & tr & Er' & _ & Ed & _).
      rewrite Erow in Er'. injection Er' as <-. destruct (Hvs zr (nth_error_In _ _ Er)) as [Ev Lr]. rewrite Ev in Ed.
      assert (L : List.length row = List.length vs) by (apply Lr; eapply nth_error_In; eauto). split; [|exact L]. rewrite Ed. apply dict_of_nodup; auto. }
    assert (Gv : grid_vars h1 = vs).
    { unfold grid_vars. destruct (g_faces h1) as [|f0 fs] eqn:Eg; [congruence|].
      assert (I : In f0 (flat_map (z_faces h1) (g_zones h1))) by (rewrite <- Ef; left; auto). apply in_flat_map in I as (z & Iz & I).
      apply In_nth_error in Iz as (i & Ei). apply In_nth_error in I as (k & Ek).
      assert (exists zr, nth_error (zones_of evs) i = Some zr) as (zr & Er).
      { destruct (nth_error (zones_of evs) i) eqn:En; eauto. apply nth_error_None in En. assert (i < List.length (g_zones h1)) by (apply nth_error_Some; congruence). lia. }
      destruct (Hz _ _ _ Ei Er) as (_ & _ & K). destruct (K _ _ Ek) as (_ & row & tr & Er' & _).
      destruct (Data _ _ _ _ _ _ Ei Er Ek Er') as [Ed L]. rewrite Ed. apply keys_combine. auto. }
    rewrite Gv in Sz. split; [congruence|]. split; [exact Ef2|].
    intros i z2 zr Ez2 Er.
    assert (exists z, nth_error (g_zones h1) i = Some z) as (z & Ez).
    { destruct (nth_error (g_zones h1) i) eqn:En; eauto. apply nth_error_None in En. assert (i < List.length (zones_of evs)) by (apply nth_error_Some; congruence). lia. }
    assert (exists zr2, nth_error (zones_of evs2) i = Some zr2) as (zr2 & Er2).
    { destruct (nth_error (zones_of evs2) i) eqn:En; eauto. apply nth_error_None in En. assert (i < List.length (g_zones h2)) by (apply nth_error_Some; congruence). lia. }
    destruct (Sz _ _ _ Ez Ez2) as (Sn & _ & Sl & Sf). destruct (Hz _ _ _ Ez Er) as (Zn & Zlen & Zf). destruct (Hz2 _ _ _ Ez2 Er2) as (_ & _ & Zf2).
    split; [congruence|]. split; [congruence|]. intros k f2 Ek2. split; [apply (Zf2 _ _ Ek2)|].
    assert (exists f, nth_error (z_faces h1 z) k = Some f) as (f & Ek).
    { destruct (nth_error (z_faces h1 z) k) eqn:En; eauto. apply nth_error_None in En. assert (k < List.length (z_faces h2 z2)) by (apply nth_error_Some; congruence). lia. }
    destruct (Zf _ _ Ek) as (_ & row & tr & Erow & Et & Ed & Fc). destruct (Sf _ _ _ Ek Ek2) as (Sp & Sk & Sv).
    exists row, tr. split; [exact Erow|]. split; [exact Et|].
    destruct (Data _ _ _ _ _ _ Ez Er Ek Erow) as [Ed' L]. split.
    - destruct (Hvs zr (nth_error_In _ _ Er)) as [Ev _]. rewrite Ev, dict_of_nodup by auto. apply dict_by_keys; auto.
      intros key Ik. rewrite (Sv key Ik). unfold var_value. rewrite Ed'.
      destruct (dget str_dec (combine vs row) key) eqn:Eg; auto. exfalso.
      clear -L Ik Eg. revert row L Eg. induction vs as [|a vs IH]; intros row L Eg; [destruct Ik|]. destruct row as [|r row]; [discriminate|].
      cbn [combine dget fst snd] in Eg. destruct (str_dec key a) as [|Na]; [discriminate|]. destruct Ik as [->|Ik]; [congruence|]. eapply IH; eauto.
    - assert (Nin : forall n, In n (f_nodes h2 f2) -> n_rc h2 n = rnd (n_p h2 n)).
      { intros n I. apply (proj2 (proj2 Nm2)). assert (In f2 (g_faces h2)). { rewrite Ef2. apply in_flat_map. exists z2. split; eapply nth_error_In; eauto. }
        destruct (t_face_nodes _ (proj1 Ok2) f2 H) as (_ & _ & Inc). apply Inc. auto. }
      assert (Nin1 : forall n, In n (f_nodes h1 f) -> n_rc h1 n = rnd (n_p h1 n)).
      { intros n I. apply (proj2 (proj2 Nm)). assert (In f (g_faces h1)). { rewrite Ef. apply in_flat_map. exists z. split; eapply nth_error_In; eauto. }
        destruct (t_face_nodes _ (proj1 Ok1) f H) as (_ & _ & Inc). apply Inc. auto. }
      revert Sp Nin Nin1 Fc. generalize (FileSpec.corners zr tr), (f_nodes h2 f2), (f_nodes h1 f). clear. intros cs l2 l1 Sp N2 N1 Fc.
      revert l2 Sp N2. induction Fc as [|o n cs l1 (p & Eo & Ep) Fc IH]; intros l2 Sp N2; destruct l2 as [|m l2]; cbn [map] in Sp; try discriminate; [constructor|].
      injection Sp as Sp1 Sp. constructor.
      + exists p. split; [exact Eo|]. rewrite N2 by (left; auto). rewrite Sp1. rewrite <- N1 by (left; auto). exact Ep.
      + apply IH; auto; intros; [apply N1|apply N2]; right; auto.
  Qed.

  Lemma exported_vars : forall rd gs zrs, Forall2 (exported rd) gs zrs ->
    forall zr, In zr zrs -> zr_vars zr = data_names /\ forall row, In row (zr_data zr) -> List.length row = List.length data_names.
  Proof.
    intros rd gs zrs H. induction H as [|g zr gs zrs X H IH]; intros z I; [destruct I|]. destruct I as [<-|I]; [|auto].
    destruct X as (_ & Ev & _ & _ & Fr). split; [exact Ev|]. intros row Ir. clear -Fr Ir. induction Fr as [|[[a b] c] r fs rows M Fr IH]; [destruct Ir|].
    destruct Ir as [<-|Ir]; [|auto]. destruct M as (na & nb & nc & _ & _ & _ & ->). rewrite map_length. reflexivity.
  Qed.

  Lemma data_names_nd : NoDup data_names.
  Proof. unfold data_names. repeat (constructor; [cbn; intros K; repeat destruct K as [K|K]; try discriminate; auto|]). constructor. Qed.

  Lemma has_face : forall zrs h, holds_zones zrs h -> (exists zr, In zr zrs /\ zr_conn zr <> []) -> g_faces h <> [].
  Proof.
    intros zrs h (Lz & Ef & Hz) (zr & I & Hc) E. apply In_nth_error in I as (i & Er).
    assert (exists z, nth_error (g_zones h) i = Some z) as (z & Ez).
    { destruct (nth_error (g_zones h) i) eqn:En; eauto. apply nth_error_None in En. assert (i < List.length zrs) by (apply nth_error_Some; congruence). lia. }
    destruct (Hz _ _ _ Ez Er) as (_ & L & _). destruct (zr_conn zr) as [|c cs] eqn:Ec; [congruence|]. destruct (z_faces h z) as [|f fs] eqn:Ez'; [discriminate|].
    assert (In f (g_faces h)). { rewrite Ef. apply in_flat_map. exists z. split; [eapply nth_error_In; eauto|]. rewrite Ez'. left; auto. } rewrite E in H. destruct H.
  Qed.

  Lemma zones_map : forall zrs : list zone_rec, zones_of (map EZone zrs) = zrs.
  Proof. induction zrs as [|z zrs IH]; [reflexivity|]. cbn. f_equal. exact IH. Qed.

  Theorem program_ok : forall fl sfmt fm rs rd t v cp, faithful_numbers -> v <> 0%R -> cp <> 0%R ->
    (forall x, number_text (sfmt x)) -> (forall x, fl (sfmt x) = Ok (rs x)) -> (forall x, word (fm x)) -> (forall x, prs (fm x) = Some (rd x)) ->
    forall zones rv ft dt at' sf sd sa cf cd ca kf kd ka nss,
    ~ In dquote zones -> source_text ft sf -> source_text dt sd -> source_text at' sa ->
    has_columns fensap_variables_to_extract sf cf -> has_columns drop3d_variables_to_extract sd cd -> has_columns adiabatic_variables_to_extract sa ca ->
    kept (split_on comma zones) sf kf -> kept (split_on comma zones) sd kd -> kept (split_on comma zones) sa ka ->
    List.length (s_titles sd) = List.length (s_titles sf) -> List.length (s_titles sa) = List.length (s_titles sf) ->
    zip4 (readable3 fl rs t v cp cf cd ca) kf kd ka nss ->
    (forall b x, In b kf -> In x (b_name b) -> x <> eqsign /\ x <> nl /\ x <> cr) ->
    exists gs zrs, zip4 (zone_of_blocks fl rs t v cp cf cd ca rv) kf kd ka gs /\ Forall2 (exported rd) gs zrs /\
      (no_degenerate zrs -> ~ three_share zrs -> (exists zr, In zr zrs /\ zr_conn zr <> []) ->
       forall h, exists out h', ansys_to_crystal fl sfmt fm zones t v cp rv ft dt at' h = (Ok out, h') /\
         forall h0, exists h2, load true out h0 = (Ok tt, h2) /\ grid_ok h2 /\ holds_zones zrs h2) /\
      (three_share zrs -> forall h, fst (ansys_to_crystal fl sfmt fm zones t v cp rv ft dt at' h) = Raise EException) /\
      ((forall zr, In zr zrs -> zr_conn zr = []) -> forall h, fst (ansys_to_crystal fl sfmt fm zones t v cp rv ft dt at' h) = Raise EIndexError).
  Proof.
    intros fl sfmt fm rs rd t v cp Hn Hv Hcp Hs Hrs Hw Hp zones rv ft dt at' sf sd sa cf cd ca kf kd ka nss Hz Sf Sd Sa Cf Cd Ca Kf Kd Ka Ld La Z Hnm.
    destruct (exported_ok fl sfmt fm rs rd t v cp Hv Hcp Hs Hrs Hw Hp zones rv ft dt at' sf sd sa cf cd ca kf kd ka nss Hz Sf Sd Sa Cf Cd Ca Kf Kd Ka Ld La Z Hnm)
      as (gs & zrs & text & Et & Zg & Fx & Ff).
    exists gs, zrs. split; [exact Zg|]. split; [exact Fx|].
    split; [|split].
    - intros Nd T Hf h. rewrite <- (zones_map zrs) in Nd, T.
      destruct (load_accepts_main true text (new_grid h) _ Ff Nd T (or_introl eq_refl)) as (h1 & E1).
      assert (Hne : g_faces h1 <> []). { apply (has_face zrs); [|exact Hf]. rewrite <- (zones_map zrs). apply (load_contents_main _ _ _ _ _ E1 Ff). }
      destruct (zones_again text h h1 _ data_names Hn E1 Ff Nd Hne data_names_nd) as (out & Es & R).
      { rewrite zones_map. eapply exported_vars; eauto. }
      exists out, h1. split.
      + unfold ansys_to_crystal. rewrite Et, bind_lift_ok. cbv beta. rewrite bind_modify. cbv beta. rewrite (bind_run _ _ _ _ _ _ _ E1). cbv beta. rewrite bind_gets. cbv beta. unfold lift. rewrite Es. reflexivity.
      + intros h0. destruct (R h0) as (h2 & A & B & C). exists h2. rewrite zones_map in C. auto.
    - intros T h. rewrite <- (zones_map zrs) in T. pose proof (load_rejects_main text (new_grid h) _ Ff T) as Er.
      unfold ansys_to_crystal. rewrite Et, bind_lift_ok. cbv beta. rewrite bind_modify. cbv beta.
      destruct (load true text (new_grid h)) as [r h1] eqn:El. cbn [fst] in Er. subst r. unfold bind at 1. rewrite El. reflexivity.
    - intros Hc h.
      assert (Fn : file_faces zrs = []).
      { clear -Hc. unfold file_faces. induction zrs as [|z zrs IH]; [reflexivity|]. cbn [flat_map]. rewrite (Hc z) by (left; auto). cbn [map app]. apply IH. intros zr I. apply Hc. right; auto. }
      assert (Nd : no_degenerate (zones_of (map EZone zrs))) by (rewrite zones_map; unfold no_degenerate; rewrite Fn; intros x []).
      assert (T : ~ three_share (zones_of (map EZone zrs))).
      { rewrite zones_map. intros (i & j & k & ti & tj & tk & p & q & _ & _ & _ & Ei & _). rewrite Fn in Ei. destruct i; discriminate. }
      destruct (load_accepts_main true text (new_grid h) _ Ff Nd T (or_introl eq_refl)) as (h1 & E1).
      assert (Hne : g_faces h1 = []).
      { destruct (load_contents_main _ _ _ _ _ E1 Ff) as ((Lz & Ef & Hz0) & _). rewrite zones_map in *. rewrite Ef.
        assert (X : forall z, In z (g_zones h1) -> z_faces h1 z = []).
        { intros z I. apply In_nth_error in I as (i & Ez).
          assert (exists zr, nth_error zrs i = Some zr) as (zr & Er).
          { destruct (nth_error zrs i) eqn:En; eauto. apply nth_error_None in En. assert (i < List.length (g_zones h1)) by (apply nth_error_Some; congruence). lia. }
          destruct (Hz0 _ _ _ Ez Er) as (_ & L & _). rewrite (Hc zr) in L by (eapply nth_error_In; eauto). destruct (z_faces h1 z); [reflexivity|discriminate]. }
        revert X. generalize (g_zones h1). induction l as [|z l IH]; intros X; [reflexivity|]. cbn [flat_map]. rewrite (X z) by (left; auto). apply IH. intros z' I. apply X. right; auto. }
      unfold ansys_to_crystal. rewrite Et, bind_lift_ok. cbv beta. rewrite bind_modify. cbv beta. rewrite (bind_run _ _ _ _ _ _ _ E1). cbv beta. rewrite bind_gets. cbv beta.
      unfold lift. rewrite store_empty by exact Hne. reflexivity.
  Qed.
End Final.
