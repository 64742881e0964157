(** Consequences for the total mass, and concrete flights. *)

From Coq Require Import ZArith Reals Bool Lra Lia List String.
From Verif Require Import Py PyLemmas Geom GeomSpec GeomProofs CloudProofs GeomMore Drops DropsSpec DropsProofs DropsMore.
Import ListNotations.
Open Scope list_scope.
Open Scope R_scope.

Section MASS.
  Variables (fs : list dface) (ds : list (vect * vect)) (d dt thr : R) (n : Z) (gs : list dface) (trs : list (nat * list vect)).
  Hypothesis Dok : Forall dict_ok fs.
  Hypothesis Run : drops fs ds d dt thr n = Ok (gs, trs).

  Theorem mass_one : forall c air j f g is,
    triangles_cloud (get_triangles_list fs) = Ok c -> make_space ds = Ok air ->
    nth_error fs j = Some f -> nth_error gs j = Some g ->
    (forall i, In i is <-> lands air c d dt thr n fs i j) -> (List.length is <= 1)%nat ->
    getitem f kMImp2 = 0 ->
    getitem g kMImp2 * area (get_triangle f j) = masses fs is.
  Proof.
    intros c air j f g is Ec Es Hf Hg His Hl Hz.
    destruct (drops_ok _ _ _ _ _ _ _ _ Dok Run) as (c' & air' & Ec' & Es' & _ & _ & _ & K).
    assert (c' = c) by congruence. assert (air' = air) by congruence. subst c' air'.
    destruct (K j f g Hf Hg) as (_ & _ & _ & _ & K1 & K2). unfold masses.
    destruct is as [|i [|i2 r]]; cbn [map sum fold_right List.length] in *; [| |lia].
    - unfold getitem in *. rewrite K2 by (intros i Hi; apply His in Hi; destruct Hi). rewrite Hz. ring.
    - assert (Li : lands air c d dt thr n fs i j) by (apply His; cbn; auto).
      pose proof Li as (fi & tr & Hi & _). rewrite Hi.
      destruct (K1 i fi Hi Li) as [Ar E].
      + intros i' H'. apply His in H'. destruct H' as [->|[]]. lia.
      + unfold getitem at 1. rewrite E. field. auto.
  Qed.

  Lemma greatest : forall l : list nat, l <> [] -> exists m, In m l /\ forall x, In x l -> (x <= m)%nat.
  Proof.
    induction l as [|a l IH]; intros H; [congruence|]. destruct l as [|b l].
    - exists a. split; [cbn; auto|]. intros x [->|[]]. lia.
    - destruct IH as (m & Hm & M); [discriminate|]. destruct (Nat.le_gt_cases a m).
      + exists m. split; [right; auto|]. intros x [->|Hx]; auto.
      + exists a. split; [left; auto|]. intros x [->|Hx]; auto. specialize (M x Hx). lia.
  Qed.

  Lemma sum_more : forall l (w : nat -> R) i, NoDup l -> In i l -> (forall x, In x l -> 0 < w x) -> (2 <= List.length l)%nat ->
    w i < sum (map w l).
  Proof.
    intros l w i N Hi P L. destruct (in_split _ _ Hi) as (l1 & l2 & ->).
    assert (S0 : forall l', (forall x, In x l' -> 0 < w x) -> 0 <= sum (map w l') /\ (l' <> [] -> 0 < sum (map w l'))).
    { induction l' as [|y l' IH]; intros Q; [cbn; split; [lra|congruence]|].
      change (sum (map w (y :: l'))) with (w y + sum (map w l')).
      destruct IH as [A _]; [intros; apply Q; cbn; auto|]. pose proof (Q y (or_introl eq_refl)). split; intros; lra. }
    assert (E : forall a b, sum (a ++ b) = sum a + sum b) by (unfold sum; induction a as [|x a IH]; cbn; intros; [ring|rewrite IH; ring]).
    rewrite map_app, E. cbn [map sum fold_right]. fold (sum (map w l2)).
    destruct (S0 l1) as [A1 B1]; [intros; apply P, in_or_app; auto|].
    destruct (S0 l2) as [A2 B2]; [intros; apply P, in_or_app; cbn; auto|].
    rewrite app_length in L. cbn in L. destruct l1; [|assert (0 < sum (map w (n0 :: l1))) by (apply B1; discriminate); lra].
    destruct l2; [cbn in L; lia|]. assert (0 < sum (map w (n0 :: l2))) by (apply B2; discriminate). lra.
  Qed.

  Theorem mass_lost : forall c air j f g is,
    triangles_cloud (get_triangles_list fs) = Ok c -> make_space ds = Ok air ->
    nth_error fs j = Some f -> nth_error gs j = Some g ->
    NoDup is -> (forall i, In i is <-> lands air c d dt thr n fs i j) -> (2 <= List.length is)%nat -> 0 <= thr ->
    getitem g kMImp2 * area (get_triangle f j) < masses fs is.
  Proof.
    intros c air j f g is Ec Es Hf Hg Nd His Hl Ht.
    destruct (drops_ok _ _ _ _ _ _ _ _ Dok Run) as (c' & air' & Ec' & Es' & _ & _ & _ & K).
    assert (c' = c) by congruence. assert (air' = air) by congruence. subst c' air'.
    destruct (K j f g Hf Hg) as (_ & _ & _ & _ & K1 & _).
    destruct (greatest is) as (m & Hm & M); [destruct is; cbn in Hl; [lia|discriminate]|].
    assert (Lm : lands air c d dt thr n fs m j) by (apply His; auto).
    pose proof Lm as (fm & tr & Hfm & _). destruct (K1 m fm Hfm Lm) as [Ar E]; [intros i' H'; apply M, His, H'|].
    unfold masses. set (w := fun i => match nth_error fs i with Some f => getitem f kStall | None => 0 end).
    replace (getitem g kMImp2 * area (get_triangle f j)) with (w m).
    - apply sum_more; auto. intros x Hx. apply His in Hx. destruct Hx as (fx & ? & E1 & E2 & _). unfold w. rewrite E1. lra.
    - unfold w. rewrite Hfm. unfold getitem at 2. rewrite E. field. auto.
  Qed.
End MASS.

(** ** Two droplets falling on one face *)

Definition stall_data (m vz_ : R) : dict str R :=
  [(kStall, m); (kStallD, 1); (kStallVX, 0); (kStallVY, 0); (kStallVZ, vz_)].
Definition low : dface := DFace (V3 0 0 0) (V3 3 0 0) (V3 0 3 0) (stall_data 1 (-2)).
Definition high : dface := DFace (V3 0 0 2) (V3 0 3 2) (V3 3 0 2) (stall_data 1 (-2)).
Definition two_faces : list dface := [low; high].
Definition still_air : list (vect * vect) := [(V3 0 0 0, V3 0 0 0); (V3 2 2 2, V3 0 0 0)].
Definition air_box : box := Box3 (Rmin 0 2) (Rmin 0 2) (Rmin 0 2) (Rmax 0 2) (Rmax 0 2) (Rmax 0 2).

Lemma still_space : make_space still_air = Ok (Space still_air air_box).
Proof. reflexivity. Qed.

Lemma in_air : forall x y z, 0 <= x <= 2 -> 0 <= y <= 2 -> 0 <= z <= 2 -> is_point_inside air_box (V3 x y z) = true.
Proof.
  intros. apply is_point_inside_ok. unfold in_box, air_box; cbn.
  rewrite !Rmin_left, !Rmax_right by lra. auto.
Qed.

Lemma sqrt_9 : sqrt 81 = 9.
Proof. replace 81 with (9 * 9) by lra. apply sqrt_square. lra. Qed.

Lemma low_orth : normal_orth (get_triangle low 0) = Ok (V3 0 0 1).
Proof.
  unfold normal_orth, orth, vdivr, get_triangle, low; cbn [df_a df_b df_c ta tb tc].
  replace (cross _ _) with (V3 0 0 9) by (unfold cross, vsub; cbn; f_equal; ring).
  replace (vmod (V3 0 0 9)) with 9 by (unfold vmod, mod2, dot; cbn; replace (0*0+0*0+9*9) with 81 by ring; symmetry; apply sqrt_9).
  rewrite (proj2 (Reqb_false 9 0)) by lra. f_equal. unfold vmul; cbn; f_equal; field.
Qed.

Lemma high_orth : forall i, normal_orth (get_triangle high i) = Ok (V3 0 0 (-1)).
Proof.
  intros i. unfold normal_orth, orth, vdivr, get_triangle, high; cbn [df_a df_b df_c ta tb tc].
  replace (cross _ _) with (V3 0 0 (-9)) by (unfold cross, vsub; cbn; f_equal; ring).
  replace (vmod (V3 0 0 (-9))) with 9 by (unfold vmod, mod2, dot; cbn; replace (0*0+0*0+(-9)*(-9)) with 81 by ring; symmetry; apply sqrt_9).
  rewrite (proj2 (Reqb_false 9 0)) by lra. f_equal. unfold vmul; cbn; f_equal; field.
Qed.

Lemma low_area : area (get_triangle low 0) = 9 / 2.
Proof.
  unfold area, get_triangle, low; cbn [df_a df_b df_c ta tb tc].
  replace (cross _ _) with (V3 0 0 9) by (unfold cross, vsub; cbn; f_equal; ring).
  replace (vmod (V3 0 0 9)) with 9 by (unfold vmod, mod2, dot; cbn; replace (0*0+0*0+9*9) with 81 by ring; symmetry; apply sqrt_9).
  field.
Qed.

(** The segment from (1,1,1) to (1,1,-1) meets the low face only. *)
Lemma fall : exists c, triangles_cloud (get_triangles_list two_faces) = Ok c /\
  first_intersection (Seg (V3 1 1 1) (V3 1 1 (-1))) c = Ok (Some (get_triangle low 0)).
Proof.
  set (sg := Seg (V3 1 1 1) (V3 1 1 (-1))).
  assert (Cw : forall t, In t (get_triangles_list two_faces) -> eps10 <= Rabs (spanned t sg)).
  { intros t [<-|[<-|[]]]; unfold spanned, sg, get_triangle, low, high, dot, cross, vsub; cbn; unfold eps10.
    - match goal with |- _ <= Rabs ?x => replace x with (-18) by ring end. rewrite Rabs_left by lra. lra.
    - match goal with |- _ <= Rabs ?x => replace x with 18 by ring end. rewrite Rabs_right by lra. lra. }
  destruct (first_intersection_ok (get_triangles_list two_faces) sg ltac:(discriminate) Cw) as (c & r & Ec & Er & Hr).
  exists c. split; auto. rewrite Er. f_equal. destruct r as [t|].
  - destruct Hr as [[<-|[<-|[]]] (x & (u & v & w & _ & _ & _ & S & _ & _ & Hz) & (k & K & _ & _ & Hk))]; auto.
    exfalso. cbn in Hz, Hk. nra.
  - exfalso. apply (Hr (get_triangle low 0) (V3 1 1 0)); [left; auto|]. split.
    + exists (1/3), (1/3), (1/3). cbn. repeat split; lra.
    + exists (1/2). cbn. repeat split; lra.
Qed.

Lemma still_flight : forall c f i, In f two_faces -> normal_orth (get_triangle f i) = Ok (if Nat.eqb i 0 then V3 0 0 1 else V3 0 0 (-1)) ->
  (i = 0%nat /\ f = low) \/ (i = 1%nat /\ f = high) ->
  first_intersection (Seg (V3 1 1 1) (V3 1 1 (-1))) c = Ok (Some (get_triangle low 0)) ->
  flight (Space still_air air_box) c 1 1 1 f i = Ok (VC, Some 0%nat, [V3 1 1 1; V3 1 1 (-1)]).
Proof.
  intros c f i _ N H E. unfold flight. rewrite N. cbn [rbind].
  assert (P : vadd (centroid (get_triangle f i)) (vmul (if Nat.eqb i 0 then V3 0 0 1 else V3 0 0 (-1)) 1) = V3 1 1 1).
  { destruct H as [[-> ->]|[-> ->]]; unfold centroid, get_triangle, low, high; cbn; apply vect_eq; cbn; field. }
  rewrite P.
  assert (G : V3 (getitem f kStallVX) (getitem f kStallVY) (getitem f kStallVZ) = V3 0 0 (-2) /\ getitem f kStallD = 1).
  { destruct H as [[-> ->]|[-> ->]]; split; reflexivity. }
  destruct G as [-> ->].
  destruct (fly_first (Space still_air air_box) still_air air_box c (V3 1 1 1) (V3 0 0 (-2)) (V3 0 0 0) 1 1 1) as [v' F]; auto.
  - discriminate.
  - lra.
  - lia.
  - apply in_air; lra.
  - intros e [<-|[<-|[]]]; auto.
  - intros Q. inversion Q. lra.
  - unfold vmod, mod2, dot, vmul; cbn. replace (0*1*(0*1)+0*1*(0*1)+-2*1*(-2*1)) with (2*2) by ring. rewrite sqrt_square by lra. lra.
  - rewrite F. replace (vadd (V3 1 1 1) (vmul (V3 0 0 (-2)) 1)) with (V3 1 1 (-1)) by (apply vect_eq; cbn; ring).
    rewrite E. reflexivity.
Qed.

Lemma two_land : exists c, triangles_cloud (get_triangles_list two_faces) = Ok c /\
  (forall i, In i [0%nat; 1%nat] <-> lands (Space still_air air_box) c 1 1 0 1 two_faces i 0) /\
  exists gs, drops two_faces still_air 1 1 0 1 = Ok (gs, [(0%nat, [V3 1 1 1; V3 1 1 (-1)]); (1%nat, [V3 1 1 1; V3 1 1 (-1)])]).
Proof.
  destruct fall as (c & Ec & E). exists c. split; auto.
  assert (F0 : flight (Space still_air air_box) c 1 1 1 low 0 = Ok (VC, Some 0%nat, [V3 1 1 1; V3 1 1 (-1)])).
  { apply still_flight; cbn; auto using low_orth. }
  assert (F1 : flight (Space still_air air_box) c 1 1 1 high 1 = Ok (VC, Some 0%nat, [V3 1 1 1; V3 1 1 (-1)])).
  { apply still_flight; cbn; auto using high_orth. }
  split.
  - intros i. split.
    + intros [<-|[<-|[]]].
      * exists low, [V3 1 1 1; V3 1 1 (-1)]. split; [reflexivity|]. split; [change (0 < 1); lra|exact F0].
      * exists high, [V3 1 1 1; V3 1 1 (-1)]. split; [reflexivity|]. split; [change (0 < 1); lra|exact F1].
    + intros (f & tr & Hf & _). destruct i as [|[|i]]; cbn in Hf |- *; auto. destruct i; discriminate.
  - unfold drops. rewrite Ec. cbn [rbind]. rewrite still_space. cbn [rbind].
    change (seq 0 (List.length two_faces)) with [0%nat; 1%nat]. cbn [drops_loop]. unfold drops_face at 1.
    change (nth_error two_faces 0) with (Some low). cbv beta iota zeta. change (getitem low kStall) with 1.
    rewrite (proj2 (Rltb_true 0 1)) by lra. rewrite F0. cbn [rbind fst snd].
    change (nth_error two_faces 0) with (Some low). cbv beta iota zeta. rewrite low_area. unfold py_div at 1. rewrite (proj2 (Reqb_false (9/2) 0)) by lra. cbn [rbind].
    set (low1 := setitem low kMImp2 (1 / (9 / 2))). change (list_set two_faces 0 low1) with [low1; high].
    unfold drops_face. change (nth_error [low1; high] 1) with (Some high). cbv beta iota zeta. change (getitem high kStall) with 1.
    rewrite (proj2 (Rltb_true 0 1)) by lra. rewrite F1. cbn [rbind fst snd].
    change (nth_error [low1; high] 0) with (Some low1). cbv iota beta.
    change (get_triangle low1 0) with (get_triangle low 0).
    rewrite low_area. unfold py_div at 1. rewrite (proj2 (Reqb_false (9/2) 0)) by lra. cbn [rbind fst snd app].
    eexists. reflexivity.
Qed.

(** ** More points than max_steps *)

Lemma more_points : exists c, triangles_cloud (get_triangles_list two_faces) = Ok c /\
  fly (Space still_air air_box) (V3 1 1 1) (V3 0 0 (-2)) 1 1 c 1 = Ok (VC, Some 0%nat, [V3 1 1 1; V3 1 1 (-1)]).
Proof.
  destruct fall as (c & Ec & E). exists c. split; auto.
  destruct (fly_first (Space still_air air_box) still_air air_box c (V3 1 1 1) (V3 0 0 (-2)) (V3 0 0 0) 1 1 1) as [v' F]; auto.
  - discriminate.
  - lra.
  - lia.
  - apply in_air; lra.
  - intros e [<-|[<-|[]]]; auto.
  - intros Q. inversion Q. lra.
  - unfold vmod, mod2, dot, vmul; cbn. replace (0*1*(0*1)+0*1*(0*1)+-2*1*(-2*1)) with (2*2) by ring. rewrite sqrt_square by lra. lra.
  - rewrite F. replace (vadd (V3 1 1 1) (vmul (V3 0 0 (-2)) 1)) with (V3 1 1 (-1)) by (apply vect_eq; cbn; ring).
    rewrite E. reflexivity.
Qed.

(** ** Drag *)

Lemma vmod_scale : forall a k, vmod (vmul a k) = Rabs k * vmod a.
Proof.
  intros a k. unfold vmod. replace (mod2 (vmul a k)) with (Rsqr k * mod2 a) by (unfold mod2, dot, vmul, Rsqr; cbn; ring).
  rewrite sqrt_mult_alt by apply Rle_0_sqr. rewrite sqrt_Rsqr_abs. auto.
Qed.

Theorem relative_speed : forall p v w d dt p' v', moved d dt w p v p' v' ->
  vsub v' w = vmul (vsub v w) (1 - drag_rate (dist_to v w) d * dt) /\
  dist_to v' w = Rabs (1 - drag_rate (dist_to v w) d * dt) * dist_to v w.
Proof.
  intros p v w d dt p' v' [_ ->].
  assert (E : vsub (vadd v (vmul (vsub w v) (drag_rate (dist_to v w) d * dt))) w = vmul (vsub v w) (1 - drag_rate (dist_to v w) d * dt)).
  { apply vect_eq; cbn; ring. }
  split; auto. unfold dist_to at 1. rewrite E, vmod_scale. auto.
Qed.

Lemma small_droplet : 2 < drag_rate 1 (/ 1000000) * / 100000.
Proof.
  unfold drag_rate. set (re := reynolds 1 (/1000000)).
  assert (Hre : re = 1000 / 17360) by (unfold re, reynolds; field).
  unfold drag_coef. destruct (Rle_dec re 350) as [_|Q]; [|exfalso; apply Q; rewrite Hre; lra].
  pose proof (Rpower_pos re (33/100)) as P. set (w := Rpower re (33/100)) in *. rewrite Hre.
  assert (24 / (1000/17360) * (1 + 166 / 1000 * w) >= 24 / (1000/17360)).
  { assert (0 < 24 / (1000/17360)) by lra. nra. }
  lra.
Qed.

Theorem step_unstable : exists p v w d dt p' v', 0 < d /\ dt = / 100000 /\ v <> w /\
  fly_step p v w d dt = Ok (p', v') /\ dist_to v w < dist_to v' w.
Proof.
  assert (Hd : 0 < / 1000000) by lra. assert (Nv : V3 1 0 0 <> V3 0 0 0) by (intros Q; inversion Q; lra).
  destruct (fly_step_ok (V3 0 0 0) (V3 1 0 0) (V3 0 0 0) (/ 1000000) (/ 100000) Hd Nv) as (p' & v' & E & M).
  exists (V3 0 0 0), (V3 1 0 0), (V3 0 0 0), (/ 1000000), (/ 100000), p', v'. repeat (split; auto).
  destruct (relative_speed _ _ _ _ _ _ _ M) as [_ ->].
  assert (D1 : dist_to (V3 1 0 0) (V3 0 0 0) = 1).
  { unfold dist_to, vmod, mod2, dot, vsub; cbn. replace ((1-0)*(1-0)+(0-0)*(0-0)+(0-0)*(0-0)) with 1 by ring. apply sqrt_1. }
  rewrite D1. pose proof small_droplet. rewrite Rabs_left by lra. lra.
Qed.

Theorem speed_not_growing : forall p v w d dt, 0 < d -> 0 <= dt -> v <> w -> drag_rate (dist_to v w) d * dt <= 2 ->
  exists p' v', fly_step p v w d dt = Ok (p', v') /\ dist_to v' w <= dist_to v w.
Proof.
  intros p v w d dt Hd Ht Hv Hr. destruct (fly_step_ok p v w d dt Hd Hv) as (p' & v' & E & M).
  exists p', v'. split; auto. destruct (relative_speed _ _ _ _ _ _ _ M) as [_ ->].
  pose proof (vmod_pos_ne v w Hv). pose proof (drag_rate_pos _ _ H Hd).
  assert (Rabs (1 - drag_rate (dist_to v w) d * dt) <= 1).
  { assert (0 <= drag_rate (dist_to v w) d * dt) by (apply Rmult_le_pos; lra). apply Rabs_le. lra. }
  nra.
Qed.

(** ** A droplet that moves with the air *)

Theorem calm_flight : exists l c, l <> [] /\ triangles_cloud l = Ok c /\
  fly (Space still_air air_box) (V3 1 1 1) (V3 0 0 0) 1 1 c 10 = Raise EZeroDivisionError.
Proof.
  destruct fall as (c & Ec & _). exists (get_triangles_list two_faces), c. split; [discriminate|]. split; auto.
  unfold fly. cbn [fly_loop]. change (last_point [V3 1 1 1]) with (@Ok vect (V3 1 1 1)). cbn [rbind List.length].
  change (Z.of_nat 1 >? 10)%Z with false. cbv iota.
  unfold inside. cbn [s_bx]. rewrite in_air by lra. cbn [negb].
  destruct (find_nearest_ok (Space still_air air_box) (V3 1 1 1)) as (n & En & Fn); [discriminate|]. rewrite En. cbn [rbind].
  rewrite fly_step_raise; auto. right. destruct Fn as (l1 & l2 & Q & _). cbn [s_ds] in Q.
  assert (Hn : In n still_air) by (rewrite Q; apply in_or_app; cbn; auto).
  destruct Hn as [<-|[<-|[]]]; auto.
Qed.
