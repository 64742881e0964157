(** Proofs about exported files of the converter that the loader refuses, with doubles. *)

From Coq Require Import ZArith Reals Lra Lia Ascii String Bool List.
From Flocq Require Import Core.Core IEEE754.BinarySingleNaN.
From Verif Require Import Py TextLemmas Heap GridModel GridSpec GridIO FileSpec LoadProps LoadMain Geom Convert ConvertSpec Ansys AnsysSpec AnsysExportSpec AnsysPipe
  AnsysCases AnsysExamples Double DoubleSpec DoubleProofs DoubleMore DoubleExport DoubleExportProofs DoubleExportMain DegenerateProofs DoubleRefusedSpec.
Import ListNotations.
Open Scope list_scope.
Open Scope nat_scope.

Lemma zones_back : forall l : list (@zone_rec DoubleOps), zones_of (map (@EZone DoubleOps) l) = l.
Proof. unfold zones_of. induction l as [|a l IH]; cbn; [reflexivity|f_equal; exact IH]. Qed.

Lemma exported_face : forall zs zrs, Forall2 (@exported DoubleOps read_real) zs zrs -> forall z a b c na nb nc, In z zs -> In (a, b, c) (fz_faces z) ->
  nth_error (fz_nodes z) a = Some na -> nth_error (fz_nodes z) b = Some nb -> nth_error (fz_nodes z) c = Some nc ->
  In [@rnd DoubleOps (at_point (cn_point na)); @rnd DoubleOps (at_point (cn_point nb)); @rnd DoubleOps (at_point (cn_point nc))] (@file_faces DoubleOps zrs).
Proof.
  intros zs zrs F2 z a b c na nb nc Iz If Ea Eb Ec. induction F2 as [|u w zs zrs E F2 IH]; [destruct Iz|]. unfold file_faces. cbn [flat_map]. apply in_or_app. destruct Iz as [<-|Iz].
  - left. destruct E as (_ & _ & E & C & _). rewrite C. apply in_map_iff. exists (a, b, c). split; [|exact If]. unfold FileSpec.corners. rewrite E, !nth_error_map, Ea, Eb, Ec. reflexivity.
  - right. apply IH. exact Iz.
Qed.

Theorem export_refused : forall fl rv ps h zs, Forall good_piece ps -> Forall (readable fl) (blocks_of ps) ->
  (forall b x, In b (blocks_of ps) -> In x (b_name b) -> x <> eqsign /\ x <> nl /\ x <> cr) ->
  load_nodes_data fl rv 0 0 [] (file_of ps) = Ok zs ->
  forall z a b c na nb nc, In z zs -> In (a, b, c) (fz_faces z) ->
  nth_error (fz_nodes z) a = Some na -> nth_error (fz_nodes z) b = Some nb -> nth_error (fz_nodes z) c = Some nc ->
  same_places 6 (cn_point na) (cn_point nb) -> same_places 6 (cn_point na) (cn_point nc) ->
  fst (@load DoubleOps true (List.concat (export fixed_real zs)) h) = Raise EException.
Proof.
  intros fl rv ps h zs G Rb Nm L z a b c na nb nc Iz If Ea Eb Ec (X1 & Y1 & Z1) (X2 & Y2 & Z2).
  destruct (@nodes_to_faces DoubleOps fl fixed_real read_real rv ps real_word real_read G Rb Nm) as (zs1 & zrs & L1 & _ & Exp & Form).
  rewrite L in L1. injection L1 as <-.
  apply (@point_main DoubleOps _ h _ (@rnd DoubleOps (at_point (cn_point na))) Form). rewrite zones_back.
  pose proof (exported_face zs zrs Exp z a b c na nb nc Iz If Ea Eb Ec) as K.
  assert (Eab : @rnd DoubleOps (at_point (cn_point nb)) = @rnd DoubleOps (at_point (cn_point na))).
  { unfold at_point. cbn [rnd]. rewrite (real_same _ _ X1), (real_same _ _ Y1), (real_same _ _ Z1). reflexivity. }
  assert (Eac : @rnd DoubleOps (at_point (cn_point nc)) = @rnd DoubleOps (at_point (cn_point na))).
  { unfold at_point. cbn [rnd]. rewrite (real_same _ _ X2), (real_same _ _ Y2), (real_same _ _ Z2). reflexivity. }
  rewrite Eab, Eac in K. exact K.
Qed.

(** The numbers of the texts of the witness, in ten-millionths. *)
Definition code (s : str) : Z := match s with ["0"%char] => 0 | ["1"%char] => 4 | _ => 10000000 end.
Definition tenths (s : str) : res R := Ok (IZR (code s) * ten (-7))%R.

Lemma node_case : forall fl l x y z h b tx ty tz r, (forall s, exists v, fl s = Ok v) -> split_ws l = [x; y; z; h; b; tx; ty; tz; r] -> exists n, node_from fl l n.
Proof.
  intros fl l x y z h b tx ty tz r A E.
  destruct (A x) as [vx Ex], (A y) as [vy Ey], (A z) as [vz Ez], (A h) as [vh Eh], (A b) as [vb Eb], (A tx) as [v1 E1], (A ty) as [v2 E2], (A tz) as [v3 E3], (A r) as [vr Er].
  exists (CNode (V3 vx vy vz) (CData vh vb v1 v2 v3 vr)), x, y, z, h, b, tx, ty, tz, r. unfold coordinate. cbn. auto 20.
Qed.

Lemma tenths_case : Forall good_piece [Head title; Data nodes_wing] /\ Forall (readable tenths) (blocks_of [Head title; Data nodes_wing]).
Proof.
  split; [apply nodes_case|].
  pose proof (proj1 (proj2 nodes_case)) as R. cbn [blocks_of flat_map app] in *. inversion R as [|b l [_ Rf] _]; subst.
  constructor; [|constructor]. split; [|exact Rf].
  cbn [nodes_wing b_nodes].
  repeat (apply Forall_cons; [eapply node_case; [intros s; eexists; reflexivity|vm_compute; reflexivity]|]). apply Forall_nil.
Qed.

Definition wing_node (f : Z -> R) (x y : Z) : cnode := CNode (V3 (f x) (f y) (f 0%Z)) (CData (f 10000000%Z) (f 10000000%Z) (f 10000000%Z) (f 10000000%Z) (f 10000000%Z) (f 10000000%Z)).
Definition wing_zone (f : Z -> R) : fzone := FZone (lit "wing") [wing_node f 0 0; wing_node f 4 0; wing_node f 0 4] [(0, 1, 2)].

Lemma wing_read : forall f : Z -> R, load_nodes_data (fun s => Ok (f (code s))) false 0 0 [] (file_of [Head title; Data nodes_wing]) = Ok [wing_zone f].
Proof. intros f. vm_compute. reflexivity. Qed.

Lemma tenths_zero : forall k, (k = 0 \/ k = 4)%Z -> places 6 (IZR k * ten (-7)) = 0%Z.
Proof.
  intros k K. unfold places. apply Znearest_imp. rewrite Rminus_0_r. unfold ten. cbn [bpow].
  replace (Z.pow_pos radix10 7) with 10000000%Z by reflexivity. replace (Z.pow_pos radix10 6) with 1000000%Z by reflexivity.
  apply Rabs_lt. destruct K as [->| ->]; lra.
Qed.

Lemma loadable_false : exists fl rv ps zs z a b c na nb nc, Forall good_piece ps /\ Forall (readable fl) (blocks_of ps) /\
  load_nodes_data fl rv 0 0 [] (file_of ps) = Ok zs /\ In z zs /\ In (a, b, c) (fz_faces z) /\
  nth_error (fz_nodes z) a = Some na /\ nth_error (fz_nodes z) b = Some nb /\ nth_error (fz_nodes z) c = Some nc /\
  differ (4 * ten (-7)) (cn_point na) (cn_point nb) /\ differ (4 * ten (-7)) (cn_point na) (cn_point nc) /\ differ (4 * ten (-7)) (cn_point nb) (cn_point nc) /\
  forall h, fst (@load DoubleOps true (List.concat (export fixed_real zs)) h) = Raise EException.
Proof.
  destruct tenths_case as [G Rb]. set (f := fun k => (IZR k * ten (-7))%R). pose proof (wing_read f) as L.
  exists tenths, false, [Head title; Data nodes_wing], [wing_zone f], (wing_zone f), 0, 1, 2, (wing_node f 0 0), (wing_node f 4 0), (wing_node f 0 4).
  assert (T : (0 < ten (-7))%R) by (apply bpow_gt_0).
  split; [exact G|]. split; [exact Rb|]. split; [exact L|]. split; [left; reflexivity|]. split; [left; reflexivity|]. split; [reflexivity|]. split; [reflexivity|]. split; [reflexivity|].
  assert (D1 : (4 * ten (-7) <= Rabs (f 0%Z - f 4%Z))%R) by (unfold f; rewrite Rabs_minus_sym, Rabs_pos_eq; lra).
  assert (D2 : (4 * ten (-7) <= Rabs (f 4%Z - f 0%Z))%R) by (unfold f; rewrite Rabs_pos_eq; lra).
  split; [left; exact D1|]. split; [right; left; exact D1|]. split; [left; exact D2|].
  intros h. apply (export_refused tenths false [Head title; Data nodes_wing] h [wing_zone f] G Rb (proj2 (proj2 nodes_case)) L (wing_zone f) 0 1 2 (wing_node f 0 0) (wing_node f 4 0) (wing_node f 0 4)); try reflexivity; try (left; reflexivity).
  - unfold same_places, f. cbn [wing_node cn_point vx vy vz]. rewrite !tenths_zero by auto. auto.
  - unfold same_places, f. cbn [wing_node cn_point vx vy vz]. rewrite !tenths_zero by auto. auto.
Qed.
