(** Proofs about geometry. *)

From Coq Require Import Reals Bool Lra Lia List Permutation.
From Verif Require Import Py Geom GeomSpec.
Import ListNotations.
Open Scope R_scope.

(** ** Comparisons *)

Lemma Rltb_true : forall x y, Rltb x y = true <-> x < y.
Proof. intros x y. unfold Rltb. destruct (Rlt_dec x y); intuition; discriminate. Qed.
Lemma Rltb_false : forall x y, Rltb x y = false <-> y <= x.
Proof. intros x y. unfold Rltb. destruct (Rlt_dec x y); intuition; try discriminate; lra. Qed.
Lemma Rleb_true : forall x y, Rleb x y = true <-> x <= y.
Proof. intros x y. unfold Rleb. destruct (Rle_dec x y); intuition; discriminate. Qed.
Lemma Rleb_false : forall x y, Rleb x y = false <-> y < x.
Proof. intros x y. unfold Rleb. destruct (Rle_dec x y); intuition; try discriminate; lra. Qed.
Lemma Reqb_true : forall x y, Reqb x y = true <-> x = y.
Proof. intros x y. unfold Reqb. destruct (Req_EM_T x y); intuition; discriminate. Qed.
Lemma Reqb_false : forall x y, Reqb x y = false <-> x <> y.
Proof. intros x y. unfold Reqb. destruct (Req_EM_T x y); intuition; discriminate. Qed.

Lemma eps10_pos : 0 < eps10.
Proof. unfold eps10. lra. Qed.

Lemma vect_eq : forall a b, vx a = vx b -> vy a = vy b -> vz a = vz b -> a = b.
Proof. intros [a1 a2 a3] [b1 b2 b3]. cbn. congruence. Qed.

(** ** Segment and triangle *)

Lemma spanned_det : forall t s, det3 (vsub (tb t) (ta t)) (vsub (tc t) (ta t)) (vsub (sa s) (sb s)) = - spanned t s.
Proof. intros t s. unfold spanned, det3, dot, cross. cbn. ring. Qed.

Lemma cramer_row : forall A B C n1 n2 n3 d r, d <> 0 -> A * n1 + B * n2 + C * n3 = r * - d ->
  A * (n1 / - d) + B * (n2 / - d) + C * (n3 / - d) = r.
Proof.
  intros A B C n1 n2 n3 d r D H.
  replace (A * (n1 / - d) + B * (n2 / - d) + C * (n3 / - d)) with ((A * n1 + B * n2 + C * n3) / - d) by (field; lra).
  rewrite H. field. lra.
Qed.

Theorem segment_general : forall t s, eps10 <= Rabs (spanned t s) ->
  (forall x, In x (intersection_with_segment t s) <-> common t s x) /\ (length (intersection_with_segment t s) <= 1)%nat.
Proof.
  intros t s Hd. unfold intersection_with_segment. rewrite spanned_det, Rabs_Ropp.
  destruct (Rltb (Rabs (spanned t s)) eps10) eqn:E; [apply Rltb_true in E; lra|]. clear E.
  assert (D : spanned t s <> 0).
  { intros E. rewrite E, Rabs_R0 in Hd. pose proof eps10_pos. lra. }
  destruct t as [[ax ay az] [bx by_ bz] [cx cy cz] r], s as [[px py pz] [qx qy qz]].
  cbn [ta tb tc sa sb vsub vx vy vz] in *.
  set (d := spanned _ _) in *.
  set (ba := vsub (V3 bx by_ bz) (V3 ax ay az)). set (ca := vsub (V3 cx cy cz) (V3 ax ay az)).
  set (pq := vsub (V3 px py pz) (V3 qx qy qz)). set (pa := vsub (V3 px py pz) (V3 ax ay az)).
  set (al := det3 pa ca pq / - d). set (be := det3 ba pa pq / - d). set (ph := det3 ba ca pa / - d).
  (* Cramer *)
  assert (Ex : (bx - ax) * al + (cx - ax) * be + (px - qx) * ph = px - ax).
  { apply cramer_row; auto. unfold d, spanned, ba, ca, pq, pa, det3, dot, cross. cbn. ring. }
  assert (Ey : (by_ - ay) * al + (cy - ay) * be + (py - qy) * ph = py - ay).
  { apply cramer_row; auto. unfold d, spanned, ba, ca, pq, pa, det3, dot, cross. cbn. ring. }
  assert (Ez : (bz - az) * al + (cz - az) * be + (pz - qz) * ph = pz - az).
  { apply cramer_row; auto. unfold d, spanned, ba, ca, pq, pa, det3, dot, cross. cbn. ring. }
  (* uniqueness *)
  assert (U : forall u v w, (bx - ax) * u + (cx - ax) * v + (px - qx) * w = px - ax ->
    (by_ - ay) * u + (cy - ay) * v + (py - qy) * w = py - ay ->
    (bz - az) * u + (cz - az) * v + (pz - qz) * w = pz - az -> u = al /\ v = be /\ w = ph).
  { intros u v w Hx Hy Hz.
    assert (Ax : (bx - ax) * (u - al) + (cx - ax) * (v - be) + (px - qx) * (w - ph) = 0) by lra.
    assert (Ay : (by_ - ay) * (u - al) + (cy - ay) * (v - be) + (py - qy) * (w - ph) = 0) by lra.
    assert (Az : (bz - az) * (u - al) + (cz - az) * (v - be) + (pz - qz) * (w - ph) = 0) by lra.
    assert (K1 : d * (u - al) = 0).
    { unfold d, spanned, dot, cross. cbn.
      replace (_ * (u - al)) with
        (- (((bx - ax) * (u - al) + (cx - ax) * (v - be) + (px - qx) * (w - ph)) * ((cy - ay) * (pz - qz) - (cz - az) * (py - qy))
        - ((by_ - ay) * (u - al) + (cy - ay) * (v - be) + (py - qy) * (w - ph)) * ((cx - ax) * (pz - qz) - (cz - az) * (px - qx))
        + ((bz - az) * (u - al) + (cz - az) * (v - be) + (pz - qz) * (w - ph)) * ((cx - ax) * (py - qy) - (cy - ay) * (px - qx)))) by ring.
      rewrite Ax, Ay, Az. ring. }
    assert (K2 : d * (v - be) = 0).
    { unfold d, spanned, dot, cross. cbn.
      replace (_ * (v - be)) with
        (((bx - ax) * (u - al) + (cx - ax) * (v - be) + (px - qx) * (w - ph)) * ((by_ - ay) * (pz - qz) - (bz - az) * (py - qy))
        - ((by_ - ay) * (u - al) + (cy - ay) * (v - be) + (py - qy) * (w - ph)) * ((bx - ax) * (pz - qz) - (bz - az) * (px - qx))
        + ((bz - az) * (u - al) + (cz - az) * (v - be) + (pz - qz) * (w - ph)) * ((bx - ax) * (py - qy) - (by_ - ay) * (px - qx))) by ring.
      rewrite Ax, Ay, Az. ring. }
    assert (K3 : d * (w - ph) = 0).
    { unfold d, spanned, dot, cross. cbn.
      replace (_ * (w - ph)) with
        (- (((bx - ax) * (u - al) + (cx - ax) * (v - be) + (px - qx) * (w - ph)) * ((by_ - ay) * (cz - az) - (bz - az) * (cy - ay))
        - ((by_ - ay) * (u - al) + (cy - ay) * (v - be) + (py - qy) * (w - ph)) * ((bx - ax) * (cz - az) - (bz - az) * (cx - ax))
        + ((bz - az) * (u - al) + (cz - az) * (v - be) + (pz - qz) * (w - ph)) * ((bx - ax) * (cy - ay) - (by_ - ay) * (cx - ax)))) by ring.
      rewrite Ax, Ay, Az. ring. }
    apply Rmult_integral in K1 as [K1|K1]; [contradiction|]. apply Rmult_integral in K2 as [K2|K2]; [contradiction|].
    apply Rmult_integral in K3 as [K3|K3]; [contradiction|]. lra. }
  clearbody al be ph.
  split; [|destruct (_ && _); cbn; lia].
  intros x. split.
  - intros Hx.
    destruct (Rleb 0 al && Rleb 0 be && Rleb (al + be) 1 && (Rleb 0 ph && Rleb ph 1)) eqn:B; [|destruct Hx].
    apply andb_true_iff in B as [B B']. apply andb_true_iff in B as [B B3]. apply andb_true_iff in B as [B1 B2].
    apply andb_true_iff in B' as [B4 B5]. rewrite Rleb_true in *. destruct Hx as [<-|[]].
    split.
    + exists (1 - al - be), al, be. cbn. repeat split; lra.
    + exists ph. cbn. repeat split; lra.
  - intros [(u & v & w & H1 & H2 & H3 & H4 & Hx & Hy & Hz) (ti & [T1 T2] & Kx & Ky & Kz)]. cbn in Hx, Hy, Hz, Kx, Ky, Kz.
    assert (Eu : u = 1 - v - w) by lra. rewrite Eu in Hx, Hy, Hz.
    destruct (U v w ti) as (-> & -> & ->); [lra..|].
    replace (Rleb 0 al) with true by (symmetry; apply Rleb_true; lra).
    replace (Rleb 0 be) with true by (symmetry; apply Rleb_true; lra).
    replace (Rleb (al + be) 1) with true by (symmetry; apply Rleb_true; lra).
    replace (Rleb 0 ph) with true by (symmetry; apply Rleb_true; lra).
    replace (Rleb ph 1) with true by (symmetry; apply Rleb_true; lra).
    left. apply vect_eq; cbn; lra.
Qed.
