(** Proofs about intersections of two triangles. *)

From Coq Require Import Reals List Bool Lra Lia Permutation.
From Verif Require Import Py Geom GeomSpec GeomProofs CloudProofs GeomMore DirProofs DropsProofs Cross CrossSpec.
Import ListNotations.
Open Scope R_scope.

(** Moving along a direction until the first of the constraints g + s h >= 0 is met. *)
Lemma first_met : forall l : list (R * R), Forall (fun p => 0 <= fst p) l -> Exists (fun p => snd p < 0) l ->
  exists s, 0 <= s /\ Forall (fun p => 0 <= fst p + s * snd p) l /\ Exists (fun p => fst p + s * snd p = 0) l.
Proof.
  induction l as [|[g h] l IH]; intros Hg Hh; [inversion Hh|].
  apply Forall_cons_iff in Hg as [G Hg]. cbn in G.
  destruct (Exists_dec (fun p : R * R => snd p < 0) l) as [E|E]; [intros p; apply Rlt_dec| |].
  - destruct (IH Hg E) as (s & S0 & SF & SE). destruct (Rle_dec 0 (g + s * h)) as [C|C].
    + exists s. split; [exact S0|]. split; [constructor; auto|]. right. exact SE.
    + assert (h < 0) by nra. assert (Q : 0 <= g / - h).
      { apply Rmult_le_pos; [lra|]. left. apply Rinv_0_lt_compat. lra. }
      assert (QE : g / - h * h = - g) by (field; lra).
      assert (Qs : g / - h <= s) by nra.
      exists (g / - h). split; [exact Q|]. split.
      * constructor; [cbn; lra|]. rewrite Forall_forall in *. intros p Hp. specialize (Hg p Hp). specialize (SF p Hp). cbn in *.
        destruct (Rle_dec 0 (snd p)); nra.
      * left. cbn. lra.
  - inversion Hh as [? ? Hh'|]; subst; [cbn in Hh'|contradiction].
    assert (Q : 0 <= g / - h).
    { apply Rmult_le_pos; [lra|]. left. apply Rinv_0_lt_compat. lra. }
    assert (QE : g / - h * h = - g) by (field; lra).
    exists (g / - h). split; [exact Q|]. split; [|left; cbn; lra].
    constructor; [cbn; lra|]. rewrite Forall_forall in *. intros p Hp. specialize (Hg p Hp).
    assert (~ snd p < 0). { intros N. apply E. apply Exists_exists. exists p. auto. }
    nra.
Qed.

(** A point of a triangle by the coordinates along two sides. *)
Definition at_coords (t : triangle) (v w : R) : vect :=
  vadd (ta t) (vadd (vmul (vsub (tb t) (ta t)) v) (vmul (vsub (tc t) (ta t)) w)).

Lemma in_tri_coords : forall t x, in_tri t x <-> exists v w, 0 <= v /\ 0 <= w /\ v + w <= 1 /\ x = at_coords t v w.
Proof.
  intros [[ax ay az] [bx by_ bz] [cx cy cz] r] [x y z]. unfold in_tri, in_triangle, at_coords, vadd, vmul, vsub; cbn. split.
  - intros (u & v & w & U & V & W & E & X & Y & Z). exists v, w. repeat split; try lra. subst x y z.
    replace u with (1 - v - w) by lra. f_equal; ring.
  - intros (v & w & V & W & E & X). injection X as -> -> ->. exists (1 - v - w), v, w. repeat split; lra || ring.
Qed.

Lemma side_coords : forall t v w, 0 <= v -> 0 <= w -> v + w <= 1 -> v = 0 \/ w = 0 \/ 1 - v - w = 0 ->
  exists s, In s (sides t) /\ on_segment (sa s) (sb s) (at_coords t v w).
Proof.
  intros [[ax ay az] [bx by_ bz] [cx cy cz] r] v w V W E [->|[->|C]]; unfold on_segment, at_coords, vadd, vmul, vsub; cbn.
  - eexists. split; [right; right; left; reflexivity|]. cbn. exists (1 - w). repeat split; lra || ring.
  - eexists. split; [left; reflexivity|]. cbn. exists v. repeat split; lra || ring.
  - eexists. split; [right; left; reflexivity|]. cbn. exists w. replace v with (1 - w) by lra. repeat split; lra || ring.
Qed.

(** The direction along which both planes can be followed. *)
Definition tri_normal (t : triangle) : vect := cross (vsub (tb t) (ta t)) (vsub (tc t) (ta t)).

Lemma in_plane : forall t d, dot (tri_normal t) (tri_normal t) <> 0 -> dot (tri_normal t) d = 0 ->
  exists v w, d = vadd (vmul (vsub (tb t) (ta t)) v) (vmul (vsub (tc t) (ta t)) w).
Proof.
  intros [[ax ay az] [bx by_ bz] [cx cy cz] r] [dx dy dz] N D. set (t := Tri _ _ _ _) in *.
  set (n := tri_normal t) in *. set (b := vsub (tb t) (ta t)) in *. set (c := vsub (tc t) (ta t)) in *.
  exists (dot (cross (V3 dx dy dz) c) n / dot n n), (dot (cross b (V3 dx dy dz)) n / dot n n).
  assert (En : n = cross b c) by reflexivity. clearbody n.
  destruct b as [b1 b2 b3], c as [c1 c2 c3]. subst n. unfold dot, cross, vadd, vmul in *. cbn in *.
  set (q := (b2 * c3 - b3 * c2) * (b2 * c3 - b3 * c2) + (b3 * c1 - b1 * c3) * (b3 * c1 - b1 * c3) + (b1 * c2 - b2 * c1) * (b1 * c2 - b2 * c1)) in *.
  set (k := (b2 * c3 - b3 * c2) * dx + (b3 * c1 - b1 * c3) * dy + (b1 * c2 - b2 * c1) * dz) in *.
  assert (X : forall e f g h, e * q = f * g + h -> h = 0 -> e = f * g / q).
  { intros e f g h E1 E2. apply (Rmult_eq_reg_r q); auto. rewrite E1, E2. field. exact N. }
  assert (Y : forall e f1 f2 g1 g2, e * q = g1 * f1 + g2 * f2 -> e = g1 * (f1 / q) + g2 * (f2 / q)).
  { intros e f1 f2 g1 g2 E1. apply (Rmult_eq_reg_r q); auto. rewrite E1. field. exact N. }
  f_equal; apply Y; unfold q.
  - replace (dx * _) with (dx * q - (b2 * c3 - b3 * c2) * k) by (rewrite D; unfold q; ring). unfold q, k. ring.
  - replace (dy * _) with (dy * q - (b3 * c1 - b1 * c3) * k) by (rewrite D; unfold q; ring). unfold q, k. ring.
  - replace (dz * _) with (dz * q - (b1 * c2 - b2 * c1) * k) by (rewrite D; unfold q; ring). unfold q, k. ring.
Qed.

Lemma neg_one : forall v w, v <> 0 \/ w <> 0 -> v < 0 \/ w < 0 \/ - v - w < 0.
Proof. intros v w H. destruct (Rlt_dec v 0); auto. destruct (Rlt_dec w 0); auto. right. right. lra. Qed.

Lemma eps10_pos : 0 < eps10.
Proof. unfold eps10. lra. Qed.

(** Following a direction of both planes from a common point to the first side. *)
Lemma walk : forall t u x v1 w1 v2 w2 d dv dw ev ew, 0 <= v1 -> 0 <= w1 -> v1 + w1 <= 1 -> x = at_coords t v1 w1 ->
  0 <= v2 -> 0 <= w2 -> v2 + w2 <= 1 -> x = at_coords u v2 w2 ->
  d = vadd (vmul (vsub (tb t) (ta t)) dv) (vmul (vsub (tc t) (ta t)) dw) ->
  d = vadd (vmul (vsub (tb u) (ta u)) ev) (vmul (vsub (tc u) (ta u)) ew) ->
  dv <> 0 \/ dw <> 0 -> exists s, 0 <= s /\ crossing t u (vadd x (vmul d s)).
Proof.
  intros t u x v1 w1 v2 w2 d dv dw ev ew V1 W1 S1 X1 V2 W2 S2 X2 Ed Ee Z1.
  set (l := [(v1, dv); (w1, dw); (1 - v1 - w1, - dv - dw); (v2, ev); (w2, ew); (1 - v2 - w2, - ev - ew)]).
  destruct (first_met l) as (s & S0 & SF & SE).
  { unfold l. repeat (apply Forall_cons; [cbn [fst]; lra|]). apply Forall_nil. }
  { destruct (neg_one _ _ Z1) as [A|[A|A]]; unfold l; [apply Exists_cons_hd|apply Exists_cons_tl, Exists_cons_hd|
      apply Exists_cons_tl, Exists_cons_tl, Exists_cons_hd]; exact A. }
  assert (P1 : vadd x (vmul d s) = at_coords t (v1 + s * dv) (w1 + s * dw)).
  { rewrite X1, Ed. unfold at_coords. clear. destruct (ta t), (tb t), (tc t). unfold vadd, vmul, vsub. cbn. f_equal; ring. }
  assert (P2 : vadd x (vmul d s) = at_coords u (v2 + s * ev) (w2 + s * ew)).
  { rewrite X2, Ee. unfold at_coords. clear. destruct (ta u), (tb u), (tc u). unfold vadd, vmul, vsub. cbn. f_equal; ring. }
  rewrite Forall_forall in SF.
  assert (F1 := SF (v1, dv)). assert (F2 := SF (w1, dw)). assert (F3 := SF (1 - v1 - w1, - dv - dw)).
  assert (F4 := SF (v2, ev)). assert (F5 := SF (w2, ew)). assert (F6 := SF (1 - v2 - w2, - ev - ew)).
  cbn [fst snd In l] in *.
  specialize (F1 (or_introl eq_refl)). specialize (F2 (or_intror (or_introl eq_refl))).
  specialize (F3 (or_intror (or_intror (or_introl eq_refl)))).
  specialize (F4 (or_intror (or_intror (or_intror (or_introl eq_refl))))).
  specialize (F5 (or_intror (or_intror (or_intror (or_intror (or_introl eq_refl)))))).
  specialize (F6 (or_intror (or_intror (or_intror (or_intror (or_intror (or_introl eq_refl))))))).
  exists s. split; [exact S0|].
  assert (I1 : in_tri t (vadd x (vmul d s))).
  { apply in_tri_coords. exists (v1 + s * dv), (w1 + s * dw). repeat split; auto. lra. }
  assert (I2 : in_tri u (vadd x (vmul d s))).
  { apply in_tri_coords. exists (v2 + s * ev), (w2 + s * ew). repeat split; auto. lra. }
  assert (B1 : v1 + s * dv = 0 \/ w1 + s * dw = 0 \/ 1 - (v1 + s * dv) - (w1 + s * dw) = 0 -> crossing t u (vadd x (vmul d s))).
  { intros B. right. destruct (side_coords t (v1 + s * dv) (w1 + s * dw)) as (sd & K1 & K2); auto; [lra|].
    exists sd. split; auto. split; auto. rewrite P1. exact K2. }
  assert (B2 : v2 + s * ev = 0 \/ w2 + s * ew = 0 \/ 1 - (v2 + s * ev) - (w2 + s * ew) = 0 -> crossing t u (vadd x (vmul d s))).
  { intros B. left. destruct (side_coords u (v2 + s * ev) (w2 + s * ew)) as (sd & K1 & K2); auto; [lra|].
    exists sd. split; auto. split; auto. rewrite P2. exact K2. }
  unfold l in SE. repeat rewrite Exists_cons in SE. cbn [fst snd] in SE.
  destruct SE as [E|[E|[E|[E|[E|[E|E]]]]]].
  - apply B1. auto.
  - apply B1. auto.
  - apply B1. right. right. lra.
  - apply B2. auto.
  - apply B2. auto.
  - apply B2. right. right. lra.
  - inversion E.
Qed.

(** Two triangles with a common point, not in one plane: the point is between two points
    where a side of one of them crosses the other. *)
Lemma crossing_exists : forall t u x, general t u -> in_tri t x -> in_tri u x ->
  exists y z, crossing t u y /\ crossing t u z /\ on_segment y z x.
Proof.
  intros t u x [Gt Gu] Ht Hu.
  apply in_tri_coords in Ht as (v1 & w1 & V1 & W1 & S1 & X1). apply in_tri_coords in Hu as (v2 & w2 & V2 & W2 & S2 & X2).
  set (n := tri_normal t). set (e := vsub (tb u) (ta u)). set (f := vsub (tc u) (ta u)).
  assert (Ne : dot n e <> 0).
  { intros E. assert (A := Gt (Seg (ta u) (tb u)) (or_introl eq_refl)). unfold spanned in A. cbn [sa sb] in A.
    change (cross _ _) with n in A. change (vsub (tb u) (ta u)) with e in A. rewrite E, Rabs_R0 in A. pose proof eps10_pos. lra. }
  assert (Nn : dot n n <> 0).
  { intros E. apply Ne. clear - E. destruct n as [x y z]. unfold dot in *. cbn in *.
    assert (x = 0) by nra. assert (y = 0) by nra. assert (z = 0) by nra. subst. ring. }
  set (d := vadd (vmul e (dot n f)) (vmul f (- dot n e))).
  assert (Hd : dot n d = 0).
  { unfold d. clear. destruct n, e, f. unfold dot, vadd, vmul. cbn. ring. }
  destruct (in_plane t d Nn Hd) as (dv & dw & Ed).
  assert (Z1 : dv <> 0 \/ dw <> 0).
  { destruct (Req_dec dv 0) as [->|]; auto. destruct (Req_dec dw 0) as [->|]; auto. exfalso.
    assert (D0 : d = V3 0 0 0). { rewrite Ed. unfold vadd, vmul. cbn. f_equal; ring. }
    assert (A := Gu (Seg (ta t) (tb t)) (or_introl eq_refl)). unfold spanned in A. cbn [sa sb] in A.
    change (vsub (tb u) (ta u)) with e in A. change (vsub (tc u) (ta u)) with f in A.
    assert (CE : cross e f = V3 0 0 0).
    { assert (C : vmul (cross e f) (dot n e) = V3 0 0 0).
      { transitivity (cross d e); [|rewrite D0; unfold cross; cbn; f_equal; ring].
        unfold d. clear. destruct n, e, f. unfold dot, vadd, vmul, cross. cbn. f_equal; ring. }
      destruct (cross e f) as [p q r]. unfold vmul in C. cbn in C. injection C as C1 C2 C3.
      apply Rmult_integral in C1 as [->|?]; [|contradiction]. apply Rmult_integral in C2 as [->|?]; [|contradiction].
      apply Rmult_integral in C3 as [->|?]; [|contradiction]. reflexivity. }
    rewrite CE in A. unfold dot in A. cbn in A. replace (0 * _ + 0 * _ + 0 * _) with 0 in A by ring.
    rewrite Rabs_R0 in A. pose proof eps10_pos. lra. }
  destruct (walk t u x v1 w1 v2 w2 d dv dw (dot n f) (- dot n e) V1 W1 S1 X1 V2 W2 S2 X2 Ed eq_refl Z1) as (s & S0 & C1).
  destruct (walk t u x v1 w1 v2 w2 (vmul d (-1)) (- dv) (- dw) (- dot n f) (dot n e) V1 W1 S1 X1 V2 W2 S2 X2) as (s' & S0' & C2).
  { rewrite Ed. clear. destruct (ta t), (tb t), (tc t). unfold vadd, vmul, vsub. cbn. f_equal; ring. }
  { unfold d. clear. fold e f. destruct e, f. unfold vadd, vmul. cbn. f_equal; ring. }
  { destruct Z1; [left|right]; lra. }
  exists (vadd x (vmul d s)), (vadd x (vmul (vmul d (-1)) s')). split; [exact C1|]. split; [exact C2|].
  destruct (Req_dec (s + s') 0) as [E|E].
  - assert (s = 0) by lra. assert (s' = 0) by lra. subst s s'. exists 0. split; [lra|].
    unfold vadd, vmul. cbn. repeat split; ring.
  - exists (s / (s + s')). assert (P : 0 < s + s') by lra. split.
    + split; [apply Rmult_le_pos; [lra|left; apply Rinv_0_lt_compat; lra]|].
      apply (Rmult_le_reg_r (s + s')); auto. unfold Rdiv. rewrite Rmult_assoc, Rinv_l by lra. lra.
    + unfold vadd, vmul. cbn. repeat split; field; lra.
Qed.

Lemma side_in_tri : forall t s x, In s (sides t) -> on_segment (sa s) (sb s) x -> in_tri t x.
Proof.
  intros [[ax ay az] [bx by_ bz] [cx cy cz] r] s [x y z] Hs (k & K & X & Y & Z). unfold in_tri, in_triangle. cbn in *.
  destruct Hs as [<-|[<-|[<-|[]]]]; cbn in *.
  - exists (1 - k), k, 0. repeat split; lra.
  - exists 0, (1 - k), k. repeat split; lra.
  - exists k, 0, (1 - k). repeat split; lra.
Qed.

(** The points of intersection of sides, before sorting. *)
Definition raw (t u : triangle) : list vect :=
  flat_map (intersection_with_segment t) (sides u) ++ flat_map (intersection_with_segment u) (sides t).

Lemma raw_ok : forall srt t u, intersection_with_triangle srt t u =
  if Nat.eqb (t_ref t) (t_ref u) then [] else match raw t u with [] => [] | _ :: _ => without_repeats (srt (raw t u)) end.
Proof.
  intros srt t u. unfold intersection_with_triangle, raw, sides. destruct (Nat.eqb _ _); auto.
  cbn [flat_map]. repeat rewrite app_nil_r. repeat rewrite <- app_assoc.
  destruct (_ ++ _); reflexivity.
Qed.

Lemma raw_general : forall t u x, general t u -> (In x (raw t u) <-> crossing t u x).
Proof.
  intros t u x [Gt Gu]. unfold raw. rewrite in_app_iff, !in_flat_map. split.
  - intros [(s & Hs & Hx)|(s & Hs & Hx)]; [left|right]; exists s; split; auto.
    + apply (segment_general t s (Gt s Hs)). exact Hx.
    + apply (segment_general u s (Gu s Hs)). exact Hx.
  - intros [(s & Hs & Hx)|(s & Hs & Hx)]; [left|right]; exists s; split; auto.
    + apply (segment_general t s (Gt s Hs)). exact Hx.
    + apply (segment_general u s (Gu s Hs)). exact Hx.
Qed.

Lemma fresh_sub : forall l p x, In x (fresh_after p l) -> In x l.
Proof.
  induction l as [|y l IH]; intros p x H; [exact H|]. cbn in H. apply in_app_iff in H as [H|H].
  - destruct (negb (veq y p)); [destruct H as [<-|[]]; left; auto|destruct H].
  - right. exact (IH _ _ H).
Qed.
Lemma repeats_sub : forall l x, In x (without_repeats l) -> In x l.
Proof. intros [|y l] x H; [exact H|]. destruct H as [<-|H]; [left; auto|right; exact (fresh_sub _ _ _ H)]. Qed.

Lemma iwt_nil : forall srt t u, keeps_all srt -> t_ref t <> t_ref u -> (intersection_with_triangle srt t u = [] <-> raw t u = []).
Proof.
  intros srt t u K N. rewrite raw_ok. apply Nat.eqb_neq in N. rewrite N. destruct (raw t u) as [|x l]; [tauto|].
  split; [|discriminate]. intros E. specialize (K (x :: l)). destruct (srt (x :: l)) as [|y r]; [|discriminate].
  apply Permutation_nil in K. discriminate.
Qed.

Theorem triangles_meet : forall srt t u, keeps_all srt -> t_ref t <> t_ref u -> general t u ->
  (intersection_with_triangle srt t u <> [] <-> exists x, in_tri t x /\ in_tri u x).
Proof.
  intros srt t u K N G. rewrite (iwt_nil srt t u K N). split.
  - intros H. destruct (raw t u) as [|x l] eqn:E; [contradiction|].
    assert (Hx : crossing t u x) by (apply raw_general; auto; rewrite E; left; auto).
    exists x. destruct Hx as [(s & Hs & A & B)|(s & Hs & A & B)]; split; auto; exact (side_in_tri _ _ _ Hs B).
  - intros (x & A & B) E. destruct (crossing_exists t u x G A B) as (y & _ & Hy & _). apply (raw_general t u y G) in Hy. rewrite E in Hy. destruct Hy.
Qed.

Theorem triangles_points : forall srt t u x, keeps_all srt -> general t u -> In x (intersection_with_triangle srt t u) -> crossing t u x.
Proof.
  intros srt t u x K G H. rewrite raw_ok in H. destruct (Nat.eqb _ _); [destruct H|].
  destruct (raw t u) as [|y l] eqn:E; [destruct H|]. apply repeats_sub in H. apply (Permutation_in _ (K _)) in H.
  apply raw_general; auto. rewrite E. exact H.
Qed.

(** ** Reported points are near to all crossings. *)
Lemma vmod_add : forall a b, vmod (vadd a b) <= vmod a + vmod b.
Proof.
  intros a b. pose proof (vmod_nonneg a). pose proof (vmod_nonneg b). pose proof (vmod_nonneg (vadd a b)).
  pose proof (cauchy a b). assert (E : vmod (vadd a b) * vmod (vadd a b) = vmod a * vmod a + vmod b * vmod b + 2 * dot a b).
  { rewrite <- !dot_self. unfold dot, vadd. cbn. ring. }
  destruct (Rle_dec (vmod (vadd a b)) (vmod a + vmod b)); auto. nra.
Qed.

Lemma dist_tri : forall a b c, dist_to a c <= dist_to a b + dist_to b c.
Proof.
  intros a b c. unfold dist_to. replace (vsub a c) with (vadd (vsub a b) (vsub b c)); [apply vmod_add|].
  unfold vadd, vsub. cbn. f_equal; ring.
Qed.

Lemma dist_sym : forall a b, dist_to a b = dist_to b a.
Proof. intros a b. unfold dist_to, vmod, mod2, dot, vsub. cbn. f_equal. ring. Qed.

Lemma fresh_near : forall l p q k, dist_to p q <= INR k * eps10 ->
  forall x, In x l -> exists y, (y = q \/ In y (fresh_after p l)) /\ dist_to x y <= INR (k + length l) * eps10.
Proof.
  induction l as [|z l IH]; intros p q k D x Hx; [destruct Hx|]. pose proof eps10_pos.
  cbn [fresh_after length]. destruct (veq z p) eqn:E; cbn [negb app].
  - unfold veq, is_near_v in E. apply Rltb_true in E.
    assert (D' : dist_to z q <= INR (S k) * eps10). { rewrite S_INR. pose proof (dist_tri z p q). lra. }
    destruct Hx as [<-|Hx].
    + exists q. split; auto. eapply Rle_trans; [exact D'|]. apply Rmult_le_compat_r; [lra|]. apply le_INR. lia.
    + destruct (IH z q (S k) D' x Hx) as (y & Hy & B). exists y. split; auto. replace (k + S (length l))%nat with (S k + length l)%nat by lia. exact B.
  - assert (D' : dist_to z z <= INR 0 * eps10). { rewrite dist_self. cbn. lra. }
    destruct Hx as [<-|Hx].
    + exists z. split; [right; left; auto|]. rewrite dist_self. apply Rmult_le_pos; [apply pos_INR|lra].
    + destruct (IH z z 0%nat D' x Hx) as (y & Hy & B). exists y. split; [right; destruct Hy as [->|Hy]; [left; auto|right; exact Hy]|].
      eapply Rle_trans; [exact B|]. apply Rmult_le_compat_r; [lra|]. apply le_INR. lia.
Qed.

Lemma repeats_near : forall l x, In x l -> exists y, In y (without_repeats l) /\ dist_to x y <= INR (length l - 1) * eps10.
Proof.
  intros [|z l] x H; [destruct H|]. cbn [without_repeats length]. rewrite Nat.sub_succ, Nat.sub_0_r. pose proof eps10_pos.
  destruct H as [<-|H].
  - exists z. split; [left; auto|]. rewrite dist_self. apply Rmult_le_pos; [apply pos_INR|lra].
  - assert (D' : dist_to z z <= INR 0 * eps10). { rewrite dist_self. cbn. lra. }
    destruct (fresh_near l z z 0%nat D' x H) as (y & Hy & B). exists y. split; auto. destruct Hy as [->|Hy]; [left; auto|right; auto].
Qed.

Lemma raw_length : forall t u, general t u -> (length (raw t u) <= 6)%nat.
Proof.
  intros t u [Gt Gu]. unfold raw, sides. cbn [flat_map]. rewrite !app_length. cbn [length].
  assert (A : forall s, In s (sides u) -> (length (intersection_with_segment t s) <= 1)%nat) by (intros s Hs; apply (segment_general t s (Gt s Hs))).
  assert (B : forall s, In s (sides t) -> (length (intersection_with_segment u s) <= 1)%nat) by (intros s Hs; apply (segment_general u s (Gu s Hs))).
  pose proof (A _ (or_introl eq_refl)). pose proof (A _ (or_intror (or_introl eq_refl))). pose proof (A _ (or_intror (or_intror (or_introl eq_refl)))).
  pose proof (B _ (or_introl eq_refl)). pose proof (B _ (or_intror (or_introl eq_refl))). pose proof (B _ (or_intror (or_intror (or_introl eq_refl)))).
  lia.
Qed.

Theorem triangles_near : forall srt t u x, keeps_all srt -> t_ref t <> t_ref u -> general t u -> crossing t u x ->
  exists y, In y (intersection_with_triangle srt t u) /\ dist_to x y <= 5 * eps10.
Proof.
  intros srt t u x K N G Hx. apply (raw_general t u x G) in Hx. pose proof (raw_length t u G) as L.
  rewrite raw_ok. apply Nat.eqb_neq in N. rewrite N.
  assert (Hs : In x (srt (raw t u))) by (apply (Permutation_in _ (Permutation_sym (K _))); exact Hx).
  destruct (repeats_near _ _ Hs) as (y & Hy & B). rewrite (Permutation_length (K (raw t u))) in B.
  destruct (raw t u) as [|z l] eqn:E; [destruct Hx|]. exists y. split; [exact Hy|].
  eapply Rle_trans; [exact B|]. apply Rmult_le_compat_r; [pose proof eps10_pos; lra|].
  replace 5 with (INR 5) by (cbn; ring). apply le_INR. lia.
Qed.

(** ** Symmetry. *)
Theorem triangles_symmetric : forall srt t u, keeps_all srt ->
  (intersection_with_triangle srt t u = [] <-> intersection_with_triangle srt u t = []).
Proof.
  intros srt t u K. destruct (Nat.eq_dec (t_ref t) (t_ref u)) as [E|N].
  - unfold intersection_with_triangle. rewrite E, Nat.eqb_refl. tauto.
  - rewrite (iwt_nil srt t u K N), (iwt_nil srt u t K) by auto. unfold raw. split; intros H; apply app_eq_nil in H as [A B]; rewrite A, B; reflexivity.
Qed.

(** ** Clouds. *)
Section Clouds.
  Variable srt : list vect -> list vect.

  Definition reports (p : triangle * triangle) : list (triangle * list vect) :=
    [(fst p, intersection_with_triangle srt (fst p) (snd p)); (snd p, intersection_with_triangle srt (fst p) (snd p))].

  Definition done (ts us : list triangle) (r : list (triangle * list vect)) : Prop :=
    exists pairs rest, r = flat_map reports pairs /\ Permutation (pairs ++ rest) (list_prod ts us) /\
      (forall p, In p pairs -> intersection_with_triangle srt (fst p) (snd p) <> []) /\
      (forall p, In p rest -> intersection_with_triangle srt (fst p) (snd p) = [] \/ forall x, ~ (in_tri (fst p) x /\ in_tri (snd p) x)).

  Lemma done_app_l : forall ts1 ts2 us r1 r2, done ts1 us r1 -> done ts2 us r2 -> done (ts1 ++ ts2) us (r1 ++ r2).
  Proof.
    intros ts1 ts2 us r1 r2 (p1 & q1 & E1 & P1 & A1 & B1) (p2 & q2 & E2 & P2 & A2 & B2).
    exists (p1 ++ p2), (q1 ++ q2). split; [rewrite flat_map_app; congruence|]. split; [|split].
    - replace (list_prod (ts1 ++ ts2) us) with (list_prod ts1 us ++ list_prod ts2 us).
      + rewrite <- P1, <- P2. rewrite <- !app_assoc. apply Permutation_app_head. rewrite !app_assoc. apply Permutation_app_tail. apply Permutation_app_comm.
      + clear. induction ts1 as [|a l IH]; auto. cbn. rewrite <- app_assoc. f_equal. exact IH.
    - intros p H. apply in_app_iff in H as [H|H]; auto.
    - intros p H. apply in_app_iff in H as [H|H]; auto.
  Qed.

  Lemma prod_app : forall (ts us1 us2 : list triangle), Permutation (list_prod ts (us1 ++ us2)) (list_prod ts us1 ++ list_prod ts us2).
  Proof.
    induction ts as [|a l IH]; intros us1 us2; cbn; auto. rewrite map_app, IH. rewrite <- !app_assoc. apply Permutation_app_head.
    rewrite !app_assoc. apply Permutation_app_tail. apply Permutation_app_comm.
  Qed.

  Lemma done_app_r : forall ts us1 us2 r1 r2, done ts us1 r1 -> done ts us2 r2 -> done ts (us1 ++ us2) (r1 ++ r2).
  Proof.
    intros ts us1 us2 r1 r2 (p1 & q1 & E1 & P1 & A1 & B1) (p2 & q2 & E2 & P2 & A2 & B2).
    exists (p1 ++ p2), (q1 ++ q2). split; [rewrite flat_map_app; congruence|]. split; [|split].
    - rewrite prod_app. rewrite <- P1, <- P2. rewrite <- !app_assoc. apply Permutation_app_head. rewrite !app_assoc. apply Permutation_app_tail. apply Permutation_app_comm.
    - intros p H. apply in_app_iff in H as [H|H]; auto.
    - intros p H. apply in_app_iff in H as [H|H]; auto.
  Qed.

  Lemma done_none : forall ts us, (forall t u x, In t ts -> In u us -> ~ (in_tri t x /\ in_tri u x)) -> done ts us [].
  Proof.
    intros ts us H. exists [], (list_prod ts us). split; auto. split; [apply Permutation_refl|]. split; [intros p []|].
    intros [t u] Hp. apply in_prod_iff in Hp as [A B]. right. intros x. apply H; auto.
  Qed.

  Lemma done_one : forall t u, done [t] [u] (leaf_pairs srt [t] [u]).
  Proof.
    intros t u. unfold leaf_pairs. cbn [flat_map]. rewrite !app_nil_r. destruct (intersection_with_triangle srt t u) as [|y l] eqn:E.
    - exists [], [(t, u)]. split; auto. split; [apply Permutation_refl|]. split; [intros p []|]. intros p [<-|[]]. left. exact E.
    - exists [(t, u)], []. split; [cbn; unfold reports; cbn; rewrite E; reflexivity|]. split; [apply Permutation_refl|]. split; [|intros p []].
      intros p [<-|[]]. cbn. congruence.
  Qed.

  Definition boxed (c : cloud) : Prop := forall d, part d c -> leaf_or_pair d /\
    forall t x, In t (stored d) -> in_triangle (ta t) (tb t) (tc t) x -> in_box (cloud_box d) x.

  Lemma boxed_sub : forall ts ss b e, boxed (Cloud ts ss b) -> In e ss -> boxed e.
  Proof. intros ts ss b e H He d Hd. apply H. exact (part_sub _ _ _ _ _ He Hd). Qed.

  Lemma boxes_apart : forall c d, boxed c -> boxed d -> is_potential_intersect_with_box (cloud_box c) (cloud_box d) = false ->
    done (stored c) (stored d) [].
  Proof.
    intros c d Hc Hd E. apply done_none. intros t u x Ht Hu [A B].
    assert (I1 := proj2 (Hc c (part_self c)) t x Ht A). assert (I2 := proj2 (Hd d (part_self d)) u x Hu B).
    assert (X : is_potential_intersect_with_box (cloud_box c) (cloud_box d) = true).
    { apply box_box_common; eauto. }
    congruence.
  Qed.

  Theorem clouds_done : forall c d, boxed c -> boxed d -> done (stored c) (stored d) (intersection_with_cloud srt c d).
  Proof.
    induction c as [ts ss b IHc] using cloud_ind'. induction d as [us ds e IHd] using cloud_ind'. intros Hc Hd.
    rewrite Forall_forall in IHc, IHd. cbn [intersection_with_cloud].
    destruct (is_potential_intersect_with_box b e) eqn:E; cbn [negb].
    2:{ apply boxes_apart; auto. }
    destruct (proj1 (Hc _ (part_self _))) as [(t & -> & ->)|(c1 & c2 & -> & ->)].
    - destruct (proj1 (Hd _ (part_self _))) as [(u & -> & ->)|(d1 & d2 & -> & ->)].
      + apply done_one.
      + assert (S1 : boxed d1) by (eapply boxed_sub; [exact Hd|left; auto]). assert (S2 : boxed d2) by (eapply boxed_sub; [exact Hd|right; left; auto]).
        assert (K : forall a, In a [d1; d2] -> boxed a -> done [t] (stored a) (intersection_with_cloud srt (Cloud [t] [] b) a)).
        { intros a Ha Sa. apply (IHd a Ha Hc Sa). }
        assert (K1 := K d1 (or_introl eq_refl) S1). assert (K2 := K d2 (or_intror (or_introl eq_refl)) S2).
        change (stored (Cloud [] [d1; d2] e)) with (stored d1 ++ stored d2 ++ []). change (stored (Cloud [t] [] b)) with [t].
        apply done_app_r; [exact K1|]. rewrite !app_nil_r. exact K2.
    - assert (S1 : boxed c1) by (eapply boxed_sub; [exact Hc|left; auto]). assert (S2 : boxed c2) by (eapply boxed_sub; [exact Hc|right; left; auto]).
      change (stored (Cloud [] [c1; c2] b)) with (stored c1 ++ stored c2 ++ []).
      apply done_app_l; [apply IHc; auto; left; auto|]. rewrite !app_nil_r. apply IHc; auto. right. left. auto.
  Qed.
End Clouds.

Lemma prod_perm : forall (a a' b b' : list triangle), Permutation a a' -> Permutation b b' -> Permutation (list_prod a b) (list_prod a' b').
Proof.
  intros a a' b b' A B. transitivity (list_prod a' b).
  - clear B. induction A; cbn; auto.
    + apply Permutation_app_head. auto.
    + rewrite !app_assoc. apply Permutation_app_tail. apply Permutation_app_comm.
    + etransitivity; eauto.
  - clear A. induction a' as [|x l IH]; cbn; auto. apply Permutation_app; auto. apply Permutation_map. auto.
Qed.

Theorem clouds_meet : forall srt l1 l2, keeps_all srt -> l1 <> [] -> l2 <> [] ->
  exists c1 c2 pairs rest, triangles_cloud l1 = Ok c1 /\ triangles_cloud l2 = Ok c2 /\
    intersection_with_cloud srt c1 c2 = flat_map (fun p => let ps := intersection_with_triangle srt (fst p) (snd p) in [(fst p, ps); (snd p, ps)]) pairs /\
    Permutation (pairs ++ rest) (list_prod l1 l2) /\
    (forall p, In p pairs -> intersection_with_triangle srt (fst p) (snd p) <> []) /\
    (forall p, In p rest -> intersection_with_triangle srt (fst p) (snd p) = [] \/ forall x, ~ (in_tri (fst p) x /\ in_tri (snd p) x)) /\
    (forall t u, In (t, u) rest -> general t u -> t_ref t <> t_ref u -> forall x, ~ (in_tri t x /\ in_tri u x)).
Proof.
  intros srt l1 l2 K N1 N2. destruct (cloud_built l1 N1) as (c1 & E1 & P1 & B1). destruct (cloud_built l2 N2) as (c2 & E2 & P2 & B2).
  destruct (clouds_done srt c1 c2 B1 B2) as (pairs & rest & E & P & A & B).
  exists c1, c2, pairs, rest. split; [exact E1|]. split; [exact E2|]. split; [exact E|]. split; [rewrite P; apply prod_perm; auto|].
  split; [exact A|]. split; [exact B|]. intros t u H G R x Hx. destruct (B _ H) as [Z|Z]; [|exact (Z x Hx)].
  assert (Y := proj2 (triangles_meet srt t u K R G) (ex_intro _ x Hx)). contradiction.
Qed.
