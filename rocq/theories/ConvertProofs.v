(** Proofs about converters. *)

From Coq Require Import ZArith Reals Bool Lra Lia List Permutation String.
From Verif Require Import Py PyLemmas Geom GeomSpec GeomProofs Drops DropsSpec DropsProofs DropsMore Convert ConvertSpec.
Import ListNotations.
Open Scope list_scope.

(** ** Nearest neighbour transfer *)

Lemma only_changes_set : forall k ks f g x, only_changes ks f g -> In k ks -> only_changes ks f (setitem g k x).
Proof.
  intros k ks f g x [P H] Hk. split; [exact P|]. intros k' Hn. rewrite <- H by auto. unfold setitem; cbn [df_data].
  rewrite dget_dset. destruct (str_dec k' k) as [->|]; [contradiction|auto].
Qed.

Lemma only_changes_refl : forall ks f, only_changes ks f f.
Proof. intros. split; [repeat split|auto]. Qed.

Lemma getitem_setitem_eq : forall f k x, getitem (setitem f k x) k = x.
Proof. intros. unfold getitem, setitem; cbn [df_data]. rewrite dget_dset. destruct (str_dec k k); [auto|congruence]. Qed.

Lemma getitem_setitem_ne : forall f k k' x, k <> k' -> getitem (setitem f k x) k' = getitem f k'.
Proof. intros. unfold getitem, setitem; cbn [df_data]. rewrite dget_dset. destruct (str_dec k' k); [congruence|auto]. Qed.

Lemma aux_middle : forall f, aux_node f = middle f.
Proof. intros f. unfold aux_node, centroid, middle, get_triangle; cbn. unfold vmul, vadd; cbn. f_equal; field. Qed.

Lemma rmap_forall2 : forall A B (f : A -> res B) (P : A -> B -> Prop) l,
  (forall x, In x l -> exists y, f x = Ok y /\ P x y) -> exists ys, rmap f l = Ok ys /\ Forall2 P l ys.
Proof.
  induction l as [|x r IH]; intros H; cbn.
  - exists []. auto.
  - destruct (H x) as (y & E & Py); [left; auto|]. rewrite E. cbn [rbind].
    destruct IH as (ys & Er & F); [intros; apply H; right; auto|]. rewrite Er. cbn [rbind].
    exists (y :: ys). auto.
Qed.

Lemma T_Hw : kT <> kHw.
Proof. discriminate. Qed.

Theorem interpolation_ok : forall query,
  (forall pts p, pts <> [] -> exists e, nth_error pts (query pts p) = Some e /\ nearest (fun x => x) pts p e) ->
  forall source target, source <> [] ->
  exists out, face_centered_interpolation query source target = Ok out /\
    Forall2 (fun f g => only_changes [lit "T"; lit "Hw"] f g /\
      exists s, nearest middle source (middle f) s /\
        getitem g (lit "T") = getitem s (lit "T") /\ getitem g (lit "Hw") = getitem s (lit "Hw")) target out.
Proof.
  intros query Hq source target Hs. unfold face_centered_interpolation. apply rmap_forall2. intros f _.
  destruct (Hq (aux_nodes source) (aux_node f)) as (e & He & _ & Hn).
  { unfold aux_nodes. destruct source; cbn; congruence. }
  unfold aux_nodes in He at 1. rewrite nth_error_map in He.
  destruct (nth_error source (query (aux_nodes source) (aux_node f))) as [s|] eqn:Es; [|discriminate].
  cbn in He. injection He as <-. eexists. split; [reflexivity|]. split.
  - apply only_changes_set; [apply only_changes_set; [apply only_changes_refl|]|]; cbn; auto.
  - exists s. refine (conj (conj _ _) (conj _ _)).
    + eapply nth_error_In; eauto.
    + intros x Hx. rewrite <- !aux_middle. apply Hn. apply in_map; auto.
    + change (lit "T") with kT. rewrite getitem_setitem_ne by (intros Q; symmetry in Q; revert Q; exact T_Hw).
      apply getitem_setitem_eq.
    + change (lit "Hw") with kHw. apply getitem_setitem_eq.
Qed.

Lemma mod2_dist : forall a b, mod2 (vsub a b) = mod2 (vsub b a).
Proof. intros. unfold mod2, dot, vsub; cbn. ring. Qed.

Lemma mod2_nonneg : forall a, (0 <= mod2 a)%R.
Proof. intros. unfold mod2, dot. nra. Qed.

Lemma center_middle : forall f, get_center f = middle f.
Proof. reflexivity. Qed.

Theorem add_beta_ok : forall lgrid agrid, agrid <> [] ->
  exists out, lazurit_add_beta lgrid agrid = Ok out /\
    Forall2 (fun f g => only_changes [lit "Beta"] f g /\
      exists s, first_nearest middle agrid (middle f) s /\ getitem g (lit "Beta") = getitem s (lit "Beta")) lgrid out.
Proof.
  intros lgrid agrid Ha. unfold lazurit_add_beta. apply rmap_forall2. intros f _.
  set (adata := map (fun f => (get_center f, getitem f kBeta)) agrid).
  destruct (argmin_ok (map (fun a => mod2 (vsub (get_center f) (fst a))) adata)) as (i & b & E & Hb & Hm).
  { unfold adata. destruct agrid; cbn; congruence. }
  rewrite E. cbn [rbind]. rewrite nth_error_map in Hb.
  destruct (nth_error adata i) as [a|] eqn:Ea; [|discriminate]. cbn in Hb. injection Hb as <-.
  unfold adata in Ea. rewrite nth_error_map in Ea. destruct (nth_error agrid i) as [s|] eqn:Es; [|discriminate].
  cbn in Ea. injection Ea as <-. eexists. split; [reflexivity|]. cbn [fst snd] in *. split.
  - apply only_changes_set; [apply only_changes_refl|]. left; auto.
  - exists s. split.
    + apply (nearest_at _ middle _ _ i); auto. intros k x Hk. rewrite nth_error_map in Hk.
      destruct (nth_error agrid k) as [t|] eqn:Et; [|discriminate]. cbn in Hk. injection Hk as <-.
      destruct (Hm k (mod2 (vsub (get_center f) (get_center t)))) as [L1 L2].
      { unfold adata. rewrite map_map, nth_error_map, Et. reflexivity. }
      rewrite (mod2_dist (get_center f) (get_center s)), (mod2_dist (get_center f) (get_center t)) in L1, L2.
      change (get_center f) with (middle f) in *. change (get_center s) with (middle s) in *. change (get_center t) with (middle t) in *.
      unfold vmod. split.
      * apply sqrt_le_1; auto using mod2_nonneg.
      * intros Q. apply sqrt_lt_1; auto using mod2_nonneg.
    + change (lit "Beta") with kBeta. apply getitem_setitem_eq.
Qed.

Theorem add_beta_empty : forall lgrid, lgrid <> [] -> lazurit_add_beta lgrid [] = Raise EValueError.
Proof. intros [|f r] H; [congruence|]. reflexivity. Qed.

(** ** Quads *)

Ltac findperm x r :=
  match r with
  | x :: ?t => constr:((@nil (nat * nat), t))
  | ?y :: ?t => let p := findperm x t in match p with (?a, ?b) => constr:((y :: a, b)) end
  end.
Ltac perm :=
  cbn [app];
  lazymatch goal with
  | |- Permutation [] _ => apply Permutation_refl
  | |- Permutation (?x :: ?l) ?r =>
      let p := findperm x r in
      match p with (?a, ?b) => change (Permutation (x :: l) (a ++ x :: b)); apply Permutation_cons_app; perm end
  end.

Theorem quad_four : forall reversed q, NoDup (corners q) ->
  exists t1 t2 x y, quad_faces reversed q = [t1; t2] /\ proper t1 /\ proper t2 /\ diagonal q x y /\
    Permutation (edges3 t1 ++ edges3 t2) ((x, y) :: (y, x) :: oriented reversed q).
Proof.
  intros rv [[[a b] c] d] H. unfold corners in H.
  apply NoDup_cons_iff in H as [H1 H]. apply NoDup_cons_iff in H as [H2 H]. apply NoDup_cons_iff in H as [H3 _].
  cbn in H1, H2, H3.
  assert (a <> b) by (intros ->; apply H1; auto). assert (a <> c) by (intros ->; apply H1; auto).
  assert (a <> d) by (intros ->; apply H1; auto). assert (b <> c) by (intros ->; apply H2; auto).
  assert (b <> d) by (intros ->; apply H2; auto). assert (c <> d) by (intros ->; apply H3; auto). clear H1 H2 H3.
  unfold quad_faces. destruct rv.
  - rewrite !(proj2 (Nat.eqb_neq _ _)) by auto. exists (d, c, b), (d, b, a), b, d.
    cbn. repeat split; auto. 
    perm.
  - rewrite !(proj2 (Nat.eqb_neq _ _)) by auto. exists (a, b, c), (a, c, d), c, a.
    cbn. repeat split; auto.
    perm.
Qed.

Lemma three_cases : forall a b c d, List.length (nodup Nat.eq_dec [a; b; c; d]) = 3%nat ->
  (a = b /\ a <> c /\ a <> d /\ c <> d) \/ (a = c /\ a <> b /\ a <> d /\ b <> d) \/ (a = d /\ a <> b /\ a <> c /\ b <> c) \/
  (b = c /\ a <> b /\ a <> d /\ b <> d) \/ (b = d /\ a <> b /\ a <> c /\ b <> c) \/ (c = d /\ a <> b /\ a <> c /\ b <> c).
Proof.
  intros a b c d H. cbn [nodup] in H.
  destruct (in_dec Nat.eq_dec a [b; c; d]) as [I1|I1], (in_dec Nat.eq_dec b [c; d]) as [I2|I2], (in_dec Nat.eq_dec c [d]) as [I3|I3];
    destruct (in_dec Nat.eq_dec d []) as [I4|I4]; cbn in H, I1, I2, I3, I4; try discriminate H; try contradiction; clear H I4.
  - assert (b <> c /\ b <> d /\ c <> d) as (? & ? & ?) by (repeat split; intros ->; auto).
    destruct I1 as [<-|[<-|[<-|[]]]]; tauto || (assert (b <> a) by auto; intuition).
  - assert (a <> b /\ a <> c /\ a <> d /\ c <> d) as (? & ? & ? & ?) by (repeat split; intros ->; auto).
    destruct I2 as [<-|[<-|[]]]; intuition.
  - assert (a <> b /\ a <> c /\ a <> d /\ b <> c /\ b <> d) as (? & ? & ? & ? & ?) by (repeat split; intros ->; auto).
    destruct I3 as [<-|[]]; intuition.
Qed.

Theorem quad_three : forall reversed q, List.length (nodup Nat.eq_dec (corners q)) = 3%nat ->
  exists t, quad_faces reversed q = [t] /\ proper t /\ (forall n, In n (corners3 t) <-> In n (corners q)) /\
    (pinched q -> Permutation (edges3 t) (real_edges (oriented reversed q))).
Proof.
  intros rv [[[a b] c] d] H. unfold corners in H. apply three_cases in H.
  assert (R : forall x y, x <> y -> Nat.eqb x y = false) by (intros; apply Nat.eqb_neq; auto).
  destruct H as [(-> & ? & ? & ?)|[(-> & ? & ? & ?)|[(-> & ? & ? & ?)|[(-> & ? & ? & ?)|[(-> & ? & ? & ?)| (-> & ? & ? & ?)]]]]];
  destruct rv; unfold quad_faces, oriented, backwards, boundary, real_edges; cbn -[Nat.eqb];
  repeat (match goal with |- context [Nat.eqb ?x ?y] => first [rewrite (Nat.eqb_refl x) | rewrite (R x y) by congruence] end; cbn -[Nat.eqb]); (eexists; split; [reflexivity|]);
  (split; [cbn; auto|]); (split; [intros n; cbn; tauto|]); intros Pn;
  try (exfalso; cbn in Pn; destruct Pn as [?|[?|[?|?]]]; congruence);
  cbn [edges3]; perm.
Qed.

Theorem mean_data_ok : forall g, In g [c_htc; c_beta; c_taux; c_tauy; c_tauz; c_rf] ->
  forall a b c, (g (mean_data a b c) = (g a + g b + g c) / 3)%R.
Proof. intros g H a b c. repeat (destruct H as [<-|H]; [reflexivity|]). destruct H. Qed.

(** ** Heat transfer *)

Open Scope R_scope.

Theorem htc_ok : forall t_air v cp flux ts stat, v <> 0 -> cp <> 0 -> ts <> stat ->
  exists htc rf, htc_recovery_factor t_air v cp flux ts stat = Ok (htc, rf) /\
    stat = t_air + rf * (v * v) / (2 * cp) /\ htc * (ts - stat) = - flux.
Proof.
  intros t_air v cp flux ts stat Hv Hc Ht. unfold htc_recovery_factor, py_div.
  rewrite (proj2 (Reqb_false (v * v) 0)) by nra. cbn [rbind].
  assert (2 * cp / (v * v) <> 0).
  { unfold Rdiv. apply Rmult_integral_contrapositive_currified; [lra|]. apply Rinv_neq_0_compat. nra. }
  rewrite (proj2 (Reqb_false (2 * cp / (v * v)) 0)) by auto. cbn [rbind].
  assert (E : ts - (t_air + (stat - t_air) * (2 * cp / (v * v)) / (2 * cp / (v * v))) = ts - stat) by (field; auto).
  rewrite E. rewrite (proj2 (Reqb_false (ts - stat) 0)) by lra. cbn [rbind].
  eexists _, _. split; [reflexivity|]. split; [field; auto|field; lra].
Qed.

Theorem htc_raises : forall t_air v cp flux ts stat, v = 0 \/ cp = 0 \/ ts = stat ->
  htc_recovery_factor t_air v cp flux ts stat = Raise EZeroDivisionError.
Proof.
  intros t_air v cp flux ts stat H. unfold htc_recovery_factor, py_div.
  destruct (Req_dec v 0) as [->|Hv].
  { rewrite (proj2 (Reqb_true (0 * 0) 0)) by lra. reflexivity. }
  rewrite (proj2 (Reqb_false (v * v) 0)) by nra. cbn [rbind].
  destruct (Req_dec cp 0) as [->|Hc].
  { rewrite (proj2 (Reqb_true (2 * 0 / (v * v)) 0)) by (field; auto). reflexivity. }
  assert (2 * cp / (v * v) <> 0).
  { unfold Rdiv. apply Rmult_integral_contrapositive_currified; [lra|]. apply Rinv_neq_0_compat. nra. }
  rewrite (proj2 (Reqb_false (2 * cp / (v * v)) 0)) by auto. cbn [rbind].
  assert (E : ts - (t_air + (stat - t_air) * (2 * cp / (v * v)) / (2 * cp / (v * v))) = ts - stat) by (field; auto).
  rewrite E. rewrite (proj2 (Reqb_true (ts - stat) 0)) by (destruct H as [|[|]]; [contradiction|contradiction|lra]). reflexivity.
Qed.
