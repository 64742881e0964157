(** Proofs about grids loaded from an exported file of the converter, with doubles. *)

From Coq Require Import ZArith Reals Lra Lia Bool List.
From Flocq Require Import Core.Core IEEE754.BinarySingleNaN.
From Verif Require Import Py TextLemmas Heap GridModel GridSpec GridIO FileSpec LoadProps LoadMain Geom Convert ConvertSpec Ansys AnsysSpec AnsysExportSpec AnsysPipe
  AnsysExamples Double DoubleSpec DoubleProofs DoubleMore DoubleExport DoubleExportProofs.
Import ListNotations.
Open Scope list_scope.
Open Scope nat_scope.

Lemma exported_point : forall zs zrs, Forall2 (@exported DoubleOps read_real) zs zrs -> forall z n, In z zs -> In n (fz_nodes z) ->
  In (at_point (cn_point n)) (@all_pts DoubleOps zrs).
Proof.
  intros zs zrs F2 z n Iz In_n. induction F2 as [|a b zs zrs E F2 IH]; [destruct Iz|]. unfold all_pts. cbn [flat_map]. apply in_or_app. destruct Iz as [<-|Iz].
  - left. destruct E as (_ & _ & E & _). rewrite E. apply in_map_iff. exists n. split; [reflexivity|exact In_n].
  - right. apply IH. exact Iz.
Qed.

Theorem joined : forall fl rv ps h h' zs, Forall good_piece ps -> Forall (readable fl) (blocks_of ps) ->
  (forall b x, In b (blocks_of ps) -> In x (b_name b) -> x <> eqsign /\ x <> nl /\ x <> cr) ->
  load_nodes_data fl rv 0 0 [] (file_of ps) = Ok zs -> @load DoubleOps true (List.concat (export fixed_real zs)) h = (Ok tt, h') ->
  forall z n z' n', In z zs -> In n (fz_nodes z) -> In z' zs -> In n' (fz_nodes z') ->
  places 6 (vx (cn_point n)) = places 6 (vx (cn_point n')) -> places 6 (vy (cn_point n)) = places 6 (vy (cn_point n')) -> places 6 (vz (cn_point n)) = places 6 (vz (cn_point n')) ->
  exists k, In k (g_nodes h') /\
    (forall j, In j (g_nodes h') -> n_rc h' j = @rnd DoubleOps (at_point (cn_point n)) -> j = k) /\
    (forall j, In j (g_nodes h') -> n_rc h' j = @rnd DoubleOps (at_point (cn_point n')) -> j = k) /\
    n_rc h' k = @rnd DoubleOps (at_point (cn_point n)) /\ n_rc h' k = @rnd DoubleOps (at_point (cn_point n')).
Proof.
  intros fl rv ps h h' zs G Rb Nm L Ld z n z' n' Iz In_n Iz' In_n' Ex Ey Ez.
  destruct (@nodes_to_faces DoubleOps fl fixed_real read_real rv ps real_word real_read G Rb Nm) as (zs1 & zrs & L1 & _ & Exp & Form).
  rewrite L in L1. injection L1 as <-.
  pose proof (exported_point zs zrs Exp z n Iz In_n) as Ip. apply In_nth_error in Ip. destruct Ip as [j Ij].
  assert (Zs : forall l : list (@zone_rec DoubleOps), zones_of (map (@EZone DoubleOps) l) = l).
  { unfold zones_of. induction l as [|a l IH]; cbn; [reflexivity|f_equal; exact IH]. }
  rewrite <- (Zs zrs) in Ij. destruct (@load_representative_main DoubleOps _ _ _ _ _ _ Ld Form Ij) as (k & Ik & Rk & U & _).
  assert (E : @rnd DoubleOps (at_point (cn_point n)) = @rnd DoubleOps (at_point (cn_point n'))).
  { unfold at_point. cbn [rnd]. rewrite (real_same _ _ Ex), (real_same _ _ Ey), (real_same _ _ Ez). reflexivity. }
  exists k. rewrite <- E. repeat (split; [assumption|]). assumption.
Qed.

(** Four ten-millionths are lost. *)
Definition lost : double := of_decimal false 4 (-7).

Lemma lost_main : exists v w : number, is_finite (proj1_sig v) = true /\ (B2R (proj1_sig v) <> 0)%R /\ @prs DoubleOps (write_fixed (proj1_sig v)) = Some w /\ (B2R (proj1_sig w) = 0)%R.
Proof.
  assert (N : is_nan lost = false) by (vm_compute; reflexivity). assert (Fi : is_finite lost = true) by (vm_compute; reflexivity).
  destruct (export_double (exist _ lost N) Fi) as (_ & w & Rd & _). exists (exist _ lost N), w. split; [exact Fi|]. cbn [proj1_sig] in *.
  assert (B : B2R lost = (IZR 7555786372591432 * bpow radix2 (-74))%R).
  { rewrite <- SF2R_B2SF. replace (B2SF lost) with (SpecFloat.S754_finite false 7555786372591432 (-74)) by (vm_compute; reflexivity). reflexivity. }
  split; [|split; [exact Rd|]].
  - rewrite B. apply Rgt_not_eq, Rmult_lt_0_compat; [apply IZR_lt; reflexivity|apply bpow_gt_0].
  - assert (Small : (Rabs (B2R lost) < / 2 * ten (-6))%R).
    { rewrite B, Rabs_pos_eq by (apply Rmult_le_pos; [apply IZR_le; discriminate|apply bpow_ge_0]). unfold ten. cbn [bpow].
      replace (Z.pow_pos radix2 74) with 18889465931478580854784%Z by reflexivity. replace (Z.pow_pos radix10 6) with 1000000%Z by reflexivity. lra. }
    destruct (export_small (exist _ lost N) Fi Small) as (w' & Rd' & E). cbn [proj1_sig] in *. rewrite Rd in Rd'. injection Rd' as <-. rewrite E. reflexivity.
Qed.
