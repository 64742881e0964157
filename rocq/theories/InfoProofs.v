(** Proofs about counters, print_info and arrays of zones. *)

From Coq Require Import ZArith NArith QArith Ascii String Bool Lia List Permutation.
From Verif Require Import Py PyLemmas Heap HeapLemmas GridModel GridSpec Zam ZamSpec ZamProofs Exchange Info InfoSpec.
Import ListNotations.
Open Scope list_scope.
Open Scope nat_scope.

(** ** Counting pairs in two ways *)

Lemma sum_length : forall A B (g : A -> list B) l, length (flat_map g l) = list_sum (map (fun x => length (g x)) l).
Proof. intros A B g. induction l as [|x l IH]; [reflexivity|]. cbn [flat_map map list_sum fold_right]. rewrite app_length, IH. reflexivity. Qed.

Lemma nodup_flat : forall A B (g : A -> list B) l, NoDup l -> (forall x, In x l -> NoDup (g x)) ->
  (forall x y b, In x l -> In y l -> In b (g x) -> In b (g y) -> x = y) -> NoDup (flat_map g l).
Proof.
  intros A B g. induction l as [|x l IH]; intros N G D; [constructor|]. inversion N as [|? ? Nx Nl]; subst. cbn [flat_map].
  assert (K : NoDup (flat_map g l)).
  { apply IH; [exact Nl|intros y Hy; apply G; right; exact Hy|]. intros a b c Ha Hb. apply D; right; auto. }
  assert (Dx : forall b, In b (g x) -> ~ In b (flat_map g l)).
  { intros b Hb Hf. apply in_flat_map in Hf as (y & Hy & Hyb). apply Nx. rewrite (D x y b); auto; [left; auto|right; auto]. }
  specialize (G x (or_introl eq_refl)). clear - G K Dx. induction (g x) as [|b r IHr]; [exact K|]. inversion G; subst. cbn [app]. constructor.
  - rewrite in_app_iff. intros [Hb|Hb]; [auto|]. exact (Dx b (or_introl eq_refl) Hb).
  - apply IHr; auto. intros c Hc. apply Dx. right. exact Hc.
Qed.

Lemma nodup_pairs : forall A B (g : A -> B) l, (forall x y, g x = g y -> x = y) -> NoDup l -> NoDup (map g l).
Proof.
  intros A B g l I N. induction N as [|x l Hx N IH]; [constructor|]. cbn. constructor; [|exact IH].
  intros H. apply in_map_iff in H as (y & E & Hy). apply I in E. subst y. auto.
Qed.

Lemma double_count : forall A B (fs : list A) (es : list B) (E : A -> list B) (G : B -> list A),
  NoDup fs -> NoDup es -> (forall f, In f fs -> NoDup (E f) /\ incl (E f) es) -> (forall e, In e es -> NoDup (G e) /\ incl (G e) fs) ->
  (forall f e, In f fs -> In e es -> (In e (E f) <-> In f (G e))) ->
  list_sum (map (fun f => length (E f)) fs) = list_sum (map (fun e => length (G e)) es).
Proof.
  intros A B fs es E G Nf Ne HE HG HM.
  set (P1 := flat_map (fun f => map (fun e => (f, e)) (E f)) fs). set (P2 := flat_map (fun e => map (fun f => (f, e)) (G e)) es).
  assert (L1 : length P1 = list_sum (map (fun f => length (E f)) fs)).
  { unfold P1. rewrite sum_length. f_equal. apply map_ext. intros f. apply map_length. }
  assert (L2 : length P2 = list_sum (map (fun e => length (G e)) es)).
  { unfold P2. rewrite sum_length. f_equal. apply map_ext. intros e. apply map_length. }
  rewrite <- L1, <- L2. apply Permutation_length. apply NoDup_Permutation.
  - apply nodup_flat; [exact Nf| |].
    + intros f Hf. apply nodup_pairs; [congruence|apply HE; exact Hf].
    + intros x y [a b] _ _ Hx Hy. apply in_map_iff in Hx as (? & E1 & _). apply in_map_iff in Hy as (? & E2 & _). congruence.
  - apply nodup_flat; [exact Ne| |].
    + intros e He. apply nodup_pairs; [congruence|apply HG; exact He].
    + intros x y [a b] _ _ Hx Hy. apply in_map_iff in Hx as (? & E1 & _). apply in_map_iff in Hy as (? & E2 & _). congruence.
  - intros [f e]. unfold P1, P2. rewrite !in_flat_map. split.
    + intros (f' & Hf & K). apply in_map_iff in K as (e' & K1 & K2). injection K1 as -> ->.
      assert (He : In e es) by (apply (HE f Hf); exact K2). exists e. split; [exact He|]. apply in_map_iff. exists f. split; [reflexivity|]. apply HM; auto.
    + intros (e' & He & K). apply in_map_iff in K as (f' & K1 & K2). injection K1 as -> ->.
      assert (Hf : In f fs) by (apply (HG e He); exact K2). exists f. split; [exact Hf|]. apply in_map_iff. exists e. split; [reflexivity|]. apply HM; auto.
Qed.

Lemma sublist_in : forall A (p : A -> Prop) l l' x, sublist_of p l l' -> (In x l' <-> In x l /\ p x).
Proof.
  intros A p l l' x H. induction H as [|y l l' Hy H IH|y l l' Hy H IH].
  - cbn. tauto.
  - cbn. rewrite IH. split; [intros [->|[K1 K2]]; auto|intros [[->|K1] K2]; auto].
  - rewrite IH. cbn. split; [tauto|]. intros [[->|K1] K2]; [contradiction|auto].
Qed.

Lemma sublist_nodup : forall A (p : A -> Prop) l l', sublist_of p l l' -> NoDup l -> NoDup l'.
Proof.
  intros A p l l' H. induction H as [|y l l' Hy H IH|y l l' Hy H IH]; intros N; auto; inversion N; subst; auto.
  constructor; auto. rewrite (sublist_in _ _ _ _ y H). tauto.
Qed.

Lemma sum_const : forall A (l : list A) g c, (forall x, In x l -> g x = c) -> list_sum (map g l) = c * length l.
Proof.
  intros A l g c H. induction l as [|x l IH]; [cbn; lia|]. cbn [map list_sum fold_right length]. rewrite (H x) by (left; auto).
  change (fold_right Nat.add 0 (map g l)) with (list_sum (map g l)). rewrite IH by (intros; apply H; right; auto). lia.
Qed.

Lemma sum_two : forall A (p q : A -> Prop) g l k m, counts p l k -> counts q l m -> (forall x, In x l -> (p x /\ ~ q x /\ g x = 1) \/ (q x /\ ~ p x /\ g x = 2)) ->
  list_sum (map g l) = k + 2 * m.
Proof.
  intros A p q g l. induction l as [|x l IH]; intros k m (a & Ha & <-) (b & Hb & <-) H.
  - inversion Ha; inversion Hb; subst. reflexivity.
  - cbn [map list_sum fold_right]. change (fold_right Nat.add 0 (map g l)) with (list_sum (map g l)).
    assert (T : forall y, In y l -> (p y /\ ~ q y /\ g y = 1) \/ (q y /\ ~ p y /\ g y = 2)) by (intros y Hy; apply H; right; exact Hy).
    destruct (H x (or_introl eq_refl)) as [(Hp & Hq & E)|(Hq & Hp & E)]; inversion Ha; inversion Hb; subst; try contradiction; cbn [length].
    + rewrite (IH (length l') (length b)); [lia|exists l'; auto|exists b; auto|exact T].
    + rewrite (IH (length a) (length l'0)); [lia|exists a; auto|exists l'0; auto|exact T].
Qed.

Section P.
  Context {F : FloatOps}.

  Theorem handshake : forall h b k, topo_ok h -> counts (fun e => length (e_faces h e) = 1) (g_edges h) b ->
    counts (fun e => length (e_faces h e) = 2) (g_edges h) k -> 3 * length (g_faces h) = b + 2 * k.
  Proof.
    intros h b k T Hb Hk.
    pose proof (double_count _ _ (g_faces h) (g_edges h) (f_edges h) (e_faces h) (t_faces_nd h T) (t_edges_nd h T)
      (fun f Hf => proj2 (t_face_edges h T f Hf)) (fun e He => proj2 (t_edge_faces h T e He))
      (fun f e Hf He => iff_sym (t_ef h T e f He Hf))) as D.
    rewrite (sum_const _ (g_faces h) (fun f => length (f_edges h f)) 3) in D by (intros f Hf; apply (t_face_edges h T f Hf)).
    rewrite D. apply (sum_two _ _ _ (fun e => length (e_faces h e)) (g_edges h) b k Hb Hk).
    intros e He. pose proof (proj1 (t_edge_faces h T e He)). lia.
  Qed.

  (** ** A zone *)

  Lemma zone_edges_good : forall h z e, grid_ok h -> zone_lists_ok h -> In z (g_zones h) -> In e (z_edges h z) ->
    In e (g_edges h) /\ ((exists f, e_faces h e = [f] /\ f_zone h f = Some z) \/
      (exists f g, e_faces h e = [f; g] /\ ((f_zone h f = Some z /\ f_zone h g = Some z) \/
         (f_zone h f = Some z /\ f_zone h g <> Some z) \/ (f_zone h f <> Some z /\ f_zone h g = Some z)))).
  Proof.
    intros h z e (T & _) L Hz He. destruct (L z Hz) as [_ LE]. apply (sublist_in _ _ _ _ e LE) in He as (He & f & Hf & Hfz).
    split; [exact He|]. destruct (t_edge_faces h T e He) as (Len & _).
    assert (D : forall g : nat, f_zone h g = Some z \/ f_zone h g <> Some z).
    { intros g. destruct (f_zone h g) as [y|]; [|right; congruence]. destruct (Nat.eq_dec y z); [left; congruence|right; congruence]. }
    destruct (e_faces h e) as [|a [|b [|c r]]]; cbn in Len; try lia.
    - destruct Hf as [<-|[]]. left. exists a. auto.
    - right. exists a, b. split; [reflexivity|]. destruct (D a), (D b); auto. destruct Hf as [<-|[<-|[]]]; contradiction.
  Qed.

  Lemma outer_of : forall h z e, grid_ok h -> zone_lists_ok h -> In z (g_zones h) -> In e (z_edges h z) ->
    (is_outer h e = Ok false /\ inside_zone h z e) \/ (is_outer h e = Ok true /\ ~ inside_zone h z e).
  Proof.
    intros h z e G L Hz He. destruct (zone_edges_good h z e G L Hz He) as (_ & [(f & E & Hf)|(f & g & E & D)]); unfold is_outer, is_inner, inside_zone; rewrite E; cbn [rbind].
    - right. split; [reflexivity|]. intros (a & b & K & _). discriminate K.
    - assert (Q : forall o1 o2 : option nat, ozone_eqb o1 o2 = true <-> o1 = o2).
      { intros [x|] [y|]; cbn; rewrite ?Nat.eqb_eq; split; congruence. }
      destruct (ozone_eqb (f_zone h f) (f_zone h g)) eqn:B.
      + left. split; [reflexivity|]. apply Q in B. exists f, g. split; [reflexivity|]. destruct D as [[D1 D2]|[[D1 D2]|[D1 D2]]]; split; congruence.
      + right. split; [reflexivity|]. intros (a & b & K & K1 & K2). injection K as <- <-. rewrite K1, K2 in B. cbn in B. rewrite Nat.eqb_refl in B. discriminate B.
  Qed.

  Lemma rmap_counts : forall A (f : A -> res bool) (p : A -> Prop) l, (forall x, In x l -> (f x = Ok true /\ p x) \/ (f x = Ok false /\ ~ p x)) ->
    exists bs, rmap f l = Ok bs /\ counts p l (length (filter (fun b : bool => b) bs)).
  Proof.
    intros A f p. induction l as [|x l IH]; intros H.
    - exists []. split; [reflexivity|]. exists []. split; [constructor|reflexivity].
    - destruct IH as (bs & E & l' & S & Len); [intros y Hy; apply H; right; exact Hy|].
      destruct (H x (or_introl eq_refl)) as [[Ex Px]|[Ex Px]].
      + exists (true :: bs). split; [cbn [rmap]; rewrite Ex, E; reflexivity|]. exists (x :: l'). split; [constructor; auto|cbn; lia].
      + exists (false :: bs). split; [cbn [rmap]; rewrite Ex, E; reflexivity|]. exists l'. split; [apply sub_drop; auto|cbn; lia].
  Qed.

  Theorem zone_counts : forall h z, grid_ok h -> zone_lists_ok h -> In z (g_zones h) ->
    exists oc, outer_edges_count h z = Ok oc /\ counts (fun e => ~ inside_zone h z e) (z_edges h z) oc /\
      3 * zone_faces_count h z + oc = 2 * zone_edges_count h z.
  Proof.
    intros h z G L Hz. pose proof G as (T & ZO).
    destruct (rmap_counts _ (is_outer h) (fun e => ~ inside_zone h z e) (z_edges h z)) as (bs & E & C).
    { intros e He. destruct (outer_of h z e G L Hz He) as [[K1 K2]|[K1 K2]]; [right|left]; tauto. }
    exists (length (filter (fun b : bool => b) bs)). split; [unfold outer_edges_count; rewrite E; reflexivity|]. split; [exact C|].
    set (zf := fun f => match f_zone h f with Some y => y =? z | None => false end).
    assert (ZF : forall f, zf f = true <-> f_zone h f = Some z).
    { intros f. unfold zf. destruct (f_zone h f) as [y|]; [rewrite Nat.eqb_eq; split; congruence|split; discriminate]. }
    destruct (L z Hz) as [_ LE].
    pose proof (double_count _ _ (z_faces h z) (z_edges h z) (f_edges h) (fun e => filter zf (e_faces h e)) (zo_faces_nd h ZO z Hz)
      (sublist_nodup _ _ _ _ LE (t_edges_nd h T))) as D.
    assert (A1 : forall f, In f (z_faces h z) -> NoDup (f_edges h f) /\ incl (f_edges h f) (z_edges h z)).
    { intros f Hf. apply (zo_faces h ZO z f Hz) in Hf as (Hf & Hfz). destruct (t_face_edges h T f Hf) as (_ & N & I). split; [exact N|].
      intros e He. apply (sublist_in _ _ _ _ e LE). split; [apply I; exact He|]. exists f. split; [|exact Hfz]. apply (t_ef h T e f); auto. }
    assert (A2 : forall e, In e (z_edges h z) -> NoDup (filter zf (e_faces h e)) /\ incl (filter zf (e_faces h e)) (z_faces h z)).
    { intros e He. apply (sublist_in _ _ _ _ e LE) in He as (He & _). destruct (t_edge_faces h T e He) as (_ & N & I). split; [apply NoDup_filter; exact N|].
      intros f Hf. apply filter_In in Hf as (Hf & K). apply (zo_faces h ZO z f Hz). split; [apply I; exact Hf|apply ZF; exact K]. }
    assert (A3 : forall f e, In f (z_faces h z) -> In e (z_edges h z) -> (In e (f_edges h f) <-> In f (filter zf (e_faces h e)))).
    { intros f e Hf He. apply (zo_faces h ZO z f Hz) in Hf as (Hf & Hfz). apply (sublist_in _ _ _ _ e LE) in He as (He & _). rewrite filter_In, <- (t_ef h T e f He Hf).
      rewrite ZF. tauto. }
    specialize (D A1 A2 A3).
    rewrite (sum_const _ (z_faces h z) (fun f => length (f_edges h f)) 3) in D.
    2:{ intros f Hf. apply (zo_faces h ZO z f Hz) in Hf as (Hf & _). apply (t_face_edges h T f Hf). }
    unfold zone_faces_count, zone_edges_count. rewrite D.
    assert (S : forall l, incl l (z_edges h z) -> forall oc, counts (fun e => ~ inside_zone h z e) l oc ->
      list_sum (map (fun e => length (filter zf (e_faces h e))) l) + oc = 2 * length l).
    { induction l as [|e l IH]; intros I oc (l' & S & <-); [inversion S; reflexivity|].
      assert (Il : incl l (z_edges h z)) by (intros y Hy; apply I; right; exact Hy).
      cbn [map list_sum fold_right length]. change (fold_right Nat.add 0 (map (fun e => length (filter zf (e_faces h e))) l)) with (list_sum (map (fun e => length (filter zf (e_faces h e))) l)).
      assert (K : (inside_zone h z e /\ length (filter zf (e_faces h e)) = 2) \/ (~ inside_zone h z e /\ length (filter zf (e_faces h e)) = 1)).
      { destruct (zone_edges_good h z e G L Hz (I e (or_introl eq_refl))) as (_ & [(f & Ef & Hf)|(f & g & Ef & Dz)]); unfold inside_zone; rewrite Ef.
        - right. split; [intros (a & b & K & _); discriminate K|]. cbn [filter]. rewrite (proj2 (ZF f) Hf). reflexivity.
        - cbn [filter]. destruct Dz as [[D1 D2]|[[D1 D2]|[D1 D2]]].
          + left. split; [exists f, g; auto|]. rewrite (proj2 (ZF f) D1), (proj2 (ZF g) D2). reflexivity.
          + right. split; [intros (a & b & K & K1 & K2); injection K as <- <-; contradiction|]. rewrite (proj2 (ZF f) D1).
            destruct (zf g) eqn:B; [apply ZF in B; contradiction|reflexivity].
          + right. split; [intros (a & b & K & K1 & K2); injection K as <- <-; contradiction|]. rewrite (proj2 (ZF g) D2).
            destruct (zf f) eqn:B; [apply ZF in B; contradiction|reflexivity]. }
      inversion S as [|? ? lk Pk Sk|? ? lk Pk Sk]; subst; destruct K as [[K1 K2]|[K1 K2]]; try contradiction; rewrite K2.
      - specialize (IH Il (length lk) (ex_intro _ lk (conj Sk eq_refl))). cbn [length]. lia.
      - specialize (IH Il (length l') (ex_intro _ l' (conj Sk eq_refl))). lia. }
    exact (S (z_edges h z) (fun x Hx => Hx) _ C).
  Qed.

  Theorem faces_in_zones : forall h, grid_ok h -> faces_count_in_zones h = faces_count h.
  Proof.
    intros h (T & ZO). unfold faces_count_in_zones, faces_count, zone_faces_count. rewrite <- (sum_length _ _ (z_faces h)).
    apply Permutation_length, NoDup_Permutation.
    - apply nodup_flat; [apply (zo_nd h ZO)|apply (zo_faces_nd h ZO)|].
      intros x y f Hx Hy Fx Fy. apply (zo_faces h ZO x f Hx) in Fx as (_ & Fx). apply (zo_faces h ZO y f Hy) in Fy as (_ & Fy). congruence.
    - apply (t_faces_nd h T).
    - intros f. rewrite in_flat_map. split.
      + intros (z & Hz & Hf). apply (zo_faces h ZO z f Hz) in Hf. tauto.
      + intros Hf. destruct (zo_cover h ZO f Hf) as (z & Hz & Hfz). exists z. split; [exact Hz|]. apply (zo_faces h ZO z f Hz). auto.
  Qed.

  (** ** The deviation *)

  Lemma py_max_ok : forall l m, py_max l = Ok m -> In m l /\ forall x, In x l -> x <= m.
  Proof.
    intros [|x r] m H; [discriminate H|]. unfold py_max in H.
    assert (E : m = fold_left Nat.max r x) by congruence. subst m. clear H. revert x. induction r as [|y r IH]; intros x.
    - cbn. split; [auto|]. intros z [->|[]]; lia.
    - cbn [fold_left]. destruct (IH (Nat.max x y)) as (K1 & K2). split.
      + destruct K1 as [K1|K1]; [|right; right; exact K1]. destruct (Nat.max_dec x y) as [K|K]; [left|right; left]; lia.
      + intros z Hz. pose proof (K2 (Nat.max x y) (or_introl eq_refl)). destruct Hz as [->|[->|Hz]]; [lia|lia|]. apply K2. right. exact Hz.
  Qed.

  Lemma sum_le_max : forall l m, (forall x, In x l -> x <= m) -> list_sum l <= m * length l /\ (list_sum l = m * length l -> forall x, In x l -> x = m).
  Proof.
    induction l as [|x l IH]; intros m H; [split; [cbn; lia|intros _ y []]|].
    destruct (IH m) as (K1 & K2); [intros y Hy; apply H; right; exact Hy|]. pose proof (H x (or_introl eq_refl)).
    cbn [list_sum fold_right length]. change (fold_right Nat.add 0 l) with (list_sum l). split; [lia|].
    intros E y [->|Hy]; [lia|]. apply K2; auto. lia.
  Qed.

  Theorem distribution_ok : forall h lines m d, grid_ok h -> distribution h = Ok (lines, m, d) ->
    (exists z, In z (g_zones h) /\ length (z_faces h z) = m) /\ (forall z, In z (g_zones h) -> length (z_faces h z) <= m) /\
    (0 <= d)%Q /\ (d == 0 <-> forall z y, In z (g_zones h) -> In y (g_zones h) -> length (z_faces h z) = length (z_faces h y))%Q /\
    (d * inject_Z (Z.of_nat (length (g_faces h))) == 100 * (inject_Z (Z.of_nat m) * inject_Z (Z.of_nat (length (g_zones h))) - inject_Z (Z.of_nat (length (g_faces h)))))%Q /\
    Forall2 (fun z l => exists oc, outer_edges_count h z = Ok oc /\ l = (z_name h z, length (z_faces h z), oc)) (g_zones h) lines.
  Proof.
    intros h lines m d G H. unfold distribution in H. destruct (rmap (zone_line h) (g_zones h)) as [ls|e] eqn:E; [|discriminate H]. cbn [rbind] in H.
    destruct (zones_count h =? 0) eqn:Zn0; [discriminate H|]. apply Nat.eqb_neq in Zn0. unfold zones_count in *.
    destruct (py_max (map (fun z => length (z_faces h z)) (g_zones h))) as [m'|e] eqn:M; [|discriminate H]. cbn [rbind] in H.
    set (im := Qmake (Z.of_nat (faces_count h)) (Pos.of_nat (length (g_zones h)))) in *.
    destruct (Qeq_bool im 0) eqn:I0; [discriminate H|].
    assert (K : lines = ls /\ m = m' /\ d = (100 * (inject_Z (Z.of_nat m') - im) / im)%Q) by (split; [|split]; congruence). clear H. destruct K as (-> & -> & Ed).
    apply py_max_ok in M as (M1 & M2).
    assert (M3 : forall z, In z (g_zones h) -> length (z_faces h z) <= m') by (intros z Hz; apply M2; apply in_map_iff; eauto).
    apply in_map_iff in M1 as (zm & M1 & Mz).
    apply Qeq_bool_neq in I0.
    assert (Ei : (im * inject_Z (Z.of_nat (length (g_zones h))) == inject_Z (Z.of_nat (length (g_faces h))))%Q).
    { unfold im, faces_count, Qeq, Qmult, inject_Z. cbn [Qnum Qden].
      assert (Ep : Zpos (Pos.of_nat (length (g_zones h))) = Z.of_nat (length (g_zones h))) by (rewrite <- positive_nat_Z; rewrite Nat2Pos.id by exact Zn0; reflexivity).
      rewrite Z.mul_1_r, Pos.mul_1_r, Ep. reflexivity. }
    set (nz := length (g_zones h)) in *. set (nf := length (g_faces h)) in *.
    assert (S : list_sum (map (fun z => length (z_faces h z)) (g_zones h)) = nf) by exact (faces_in_zones h G).
    destruct (sum_le_max (map (fun z => length (z_faces h z)) (g_zones h)) m') as (S1 & S2).
    { intros x Hx. apply in_map_iff in Hx as (z & <- & Hz). auto. }
    rewrite map_length, S in S1, S2. fold nz in S1, S2.
    assert (F0 : nf <> 0). { intros F0. apply I0. unfold im, faces_count. fold nf. rewrite F0. reflexivity. }
    assert (Ed2 : (d * inject_Z (Z.of_nat nf) == 100 * (inject_Z (Z.of_nat m') * inject_Z (Z.of_nat nz) - inject_Z (Z.of_nat nf)))%Q).
    { rewrite Ed, <- Ei. field. exact I0. }
    assert (Dn : (d * inject_Z (Z.of_nat nf) == inject_Z (100 * Z.of_nat (m' * nz - nf)))%Q).
    { rewrite Ed2. rewrite Nat2Z.inj_sub by lia. rewrite Nat2Z.inj_mul. rewrite inject_Z_mult. unfold Z.sub. rewrite inject_Z_plus, inject_Z_opp, inject_Z_mult. ring. }
    assert (Fp : (0 < inject_Z (Z.of_nat nf))%Q) by (unfold Qlt, inject_Z; cbn [Qnum Qden]; lia).
    split; [exists zm; auto|]. split; [exact M3|]. split; [|split; [|split; [exact Ed2|]]].
    - apply Qmult_le_r with (z := inject_Z (Z.of_nat nf)); [exact Fp|]. rewrite Dn, Qmult_0_l. unfold Qle, inject_Z. cbn [Qnum Qden]. lia.
    - split.
      + intros D0. rewrite D0 in Dn. unfold Qeq, Qmult, inject_Z in Dn. cbn [Qnum Qden] in Dn.
        assert (Eq : nf = m' * nz) by nia. specialize (S2 Eq).
        intros z y Hz Hy. transitivity m'; [|symmetry]; apply S2; apply in_map_iff; eauto.
      + intros A. assert (Eq : nf = m' * nz).
        { rewrite <- S. unfold nz. rewrite <- (map_length (fun z => length (z_faces h z)) (g_zones h)) at 1.
          rewrite (sum_const _ (g_zones h) (fun z => length (z_faces h z)) m'); [rewrite map_length; reflexivity|].
          intros z Hz. rewrite <- M1. apply A; auto. }
        apply (Qmult_inj_r d 0 (inject_Z (Z.of_nat nf))); [intros K; rewrite K in Fp; discriminate Fp|].
        rewrite Dn, Eq, Nat.sub_diag. reflexivity.
    - apply rmap_ok_Forall2 in E. clear - E. induction E as [|z l zs ls Ez E IH]; constructor; auto.
      unfold zone_line in Ez. destruct (outer_edges_count h z) as [oc|e]; [|discriminate Ez]. cbn [rbind] in Ez. exists oc. split; [reflexivity|].
      unfold zone_faces_count in Ez. congruence.
  Qed.

  (** ** When print_info works *)

  Lemma lines_ok : forall h, grid_ok h -> zone_lists_ok h -> exists ls, rmap (zone_line h) (g_zones h) = Ok ls.
  Proof.
    intros h G L. assert (K : forall zs, incl zs (g_zones h) -> exists ls, rmap (zone_line h) zs = Ok ls); [|apply (K _ (fun x Hx => Hx))].
    induction zs as [|z zs IH]; intros I; [exists []; reflexivity|].
    destruct IH as (ls & E); [intros x Hx; apply I; right; exact Hx|].
    destruct (zone_counts h z G L (I z (or_introl eq_refl))) as (oc & Eo & _).
    exists ((z_name h z, zone_faces_count h z, oc) :: ls). cbn [rmap]. unfold zone_line at 1. rewrite Eo. cbn [rbind]. rewrite E. reflexivity.
  Qed.

  Lemma distribution_works : forall h, grid_ok h -> zone_lists_ok h -> g_faces h <> [] -> exists r, distribution h = Ok r.
  Proof.
    intros h G L Nf. destruct (lines_ok h G L) as (ls & E). unfold distribution. rewrite E. cbn [rbind].
    destruct (g_faces h) as [|f fs] eqn:Ef; [congruence|]. pose proof G as (T & ZO).
    destruct (zo_cover h ZO f) as (z & Hz & _); [rewrite Ef; left; reflexivity|]. unfold zones_count, faces_count.
    destruct (g_zones h) as [|z0 zs] eqn:Ez; [destruct Hz|]. rewrite Ef. cbn [length Nat.eqb map py_max rbind].
    destruct (Qeq_bool _ _) eqn:Q0; [|eexists; reflexivity]. apply Qeq_bool_eq in Q0. unfold Qeq in Q0. cbn [Qnum Qden] in Q0. lia.
  Qed.

  Theorem info_works : forall h es fs ms, grid_ok h -> zone_lists_ok h -> g_faces h <> [] ->
    exists s, print_info es fs ms h = Ok s /\ sh_counts s = (length (g_nodes h), length (g_edges h), length (g_faces h), length (g_zones h)) /\
      (es = true <-> sh_edges s <> None) /\ (fs = true <-> sh_faces s <> None) /\ (ms = true <-> sh_matrix s <> None).
  Proof.
    intros h es fs ms G L Nf. pose proof G as (T & ZO). destruct (grid_edges_in_zones h G) as (NZ & EZ).
    destruct (zam_main h (g_edges h) (g_zones h) NZ EZ) as (a & Ha & _).
    assert (S1 : exists s, edges_statistics a = Ok s).
    { destruct (statistics_main h (g_edges h) (g_zones h) a NZ EZ Ha) as (b & i & c & _ & _ & _ & _ & K & _).
      destruct K as (pb & pi & pc & K & _); [|eexists; exact K].
      destruct (g_faces h) as [|f r] eqn:Ef; [congruence|]. destruct (t_face_edges h T f) as (K1 & _ & K2); [rewrite Ef; left; reflexivity|].
      destruct (f_edges h f) as [|e q]; [discriminate K1|]. intros Ee. specialize (K2 e (or_introl eq_refl)). rewrite Ee in K2. destruct K2. }
    destruct S1 as (s1 & S1). destruct (distribution_works h G L Nf) as (d & D).
    assert (S3 : exists m, max_cross_border_len a = Ok m).
    { destruct (g_faces h) as [|f r] eqn:Ef; [congruence|]. destruct (zo_cover h ZO f) as (z & Hz & _); [rewrite Ef; left; reflexivity|].
      apply In_nth_error in Hz as (i & Hi).
      destruct (queries_main h (g_edges h) (g_zones h) a i z NZ EZ Ha Hi) as (_ & _ & m & K & _). eexists; exact K. }
    destruct S3 as (m & S3).
    unfold print_info. rewrite Ha. cbn [rbind].
    exists (mkShown (nodes_count h, edges_count h, faces_count h, zones_count h) (if es then Some s1 else None) (if fs then Some d else None) (if ms then Some (zm a, m) else None)).
    split; [destruct es, fs, ms; cbn [rbind]; rewrite ?S1, ?D, ?S3; reflexivity|]. split; [reflexivity|].
    cbn [sh_edges sh_faces sh_matrix]. destruct es, fs, ms; repeat split; intros; try congruence; discriminate.
  Qed.

  Theorem info_empty : forall h es fs ms, grid_ok h -> zone_lists_ok h -> g_faces h = [] ->
    if es || fs then print_info es fs ms h = Raise EZeroDivisionError
    else if ms then (exists s, print_info es fs ms h = Ok s) \/ print_info es fs ms h = Raise EValueError
    else exists s, print_info es fs ms h = Ok s.
  Proof.
    intros h es fs ms G L Nf. pose proof G as (T & ZO). destruct (grid_edges_in_zones h G) as (NZ & EZ).
    destruct (zam_main h (g_edges h) (g_zones h) NZ EZ) as (a & Ha & _).
    assert (Ne : g_edges h = []).
    { destruct (g_edges h) as [|e r] eqn:Ee; [reflexivity|]. destruct (t_edge_faces h T e) as (K1 & _ & K2); [rewrite Ee; left; reflexivity|].
      rewrite Nf in K2. destruct (e_faces h e) as [|f q]; [cbn in K1; lia|]. destruct (K2 f (or_introl eq_refl)). }
    assert (S1 : edges_statistics a = Raise EZeroDivisionError).
    { destruct (statistics_main h (g_edges h) (g_zones h) a NZ EZ Ha) as (b & i & c & _ & _ & _ & _ & _ & K). exact (K Ne). }
    assert (D : distribution h = Raise EZeroDivisionError).
    { destruct (lines_ok h G L) as (ls & E). unfold distribution. rewrite E. cbn [rbind]. unfold zones_count, faces_count.
      destruct (g_zones h) as [|z zs]; [reflexivity|]. rewrite Nf. cbn [length Nat.eqb map py_max rbind Z.of_nat].
      destruct (Qeq_bool _ _) eqn:Q0; [reflexivity|]. apply Qeq_bool_neq in Q0. exfalso. apply Q0. reflexivity. }
    unfold print_info. rewrite Ha. cbn [rbind].
    destruct es; cbn [orb]; [rewrite S1; reflexivity|]. cbn [rbind]. destruct fs; [rewrite D; reflexivity|]. cbn [rbind].
    destruct ms; [|eexists; reflexivity].
    destruct (g_zones h) as [|z zs] eqn:Ez.
    - right. assert (Za : zc a = 0). { destruct (zam_main h (g_edges h) (@nil nat) NZ EZ) as (a' & Ha' & Zc & _). rewrite Ha' in Ha. injection Ha as <-. exact Zc. }
      unfold max_cross_border_len. rewrite Za. reflexivity.
    - left. rewrite <- Ez in *. destruct (queries_main h (g_edges h) (g_zones h) a 0 z NZ EZ Ha) as (_ & _ & m & K & _); [rewrite Ez; reflexivity|].
      rewrite K. eexists; reflexivity.
  Qed.

  (** ** Adjacent edges *)

  Lemma edge_nodes_two : forall h e, topo_ok h -> In e (g_edges h) -> exists a b, e_nodes h e = [a; b] /\ a <> b.
  Proof.
    intros h e T He. destruct (t_edge_nodes h T e He) as (L & N & _). destruct (e_nodes h e) as [|a [|b [|c r]]]; try discriminate L.
    exists a, b. split; [reflexivity|]. inversion N; subst. intros ->. apply H1. left. reflexivity.
  Qed.

  Theorem edges_adjacent : forall h e1 e2, topo_ok h -> In e1 (g_edges h) -> In e2 (g_edges h) ->
    exists b, is_adjacent_with h e1 e2 = Ok b /\ is_adjacent_with h e2 e1 = Ok b /\
      (b = true <-> exists n, In n (e_nodes h e1) /\ In n (e_nodes h e2)) /\
      (b = true -> e1 <> e2 -> exists n, forall m, In m (e_nodes h e1) /\ In m (e_nodes h e2) <-> m = n).
  Proof.
    intros h e1 e2 T H1 H2. destruct (edge_nodes_two h e1 T H1) as (a0 & a1 & Ea & Na). destruct (edge_nodes_two h e2 T H2) as (b0 & b1 & Eb & Nb).
    exists ((a0 =? b0) || (a0 =? b1) || (a1 =? b0) || (a1 =? b1)).
    assert (Sh : (a0 =? b0) || (a0 =? b1) || (a1 =? b0) || (a1 =? b1) = true <-> exists n, In n (e_nodes h e1) /\ In n (e_nodes h e2)).
    { rewrite Ea, Eb, !orb_true_iff, !Nat.eqb_eq. split.
      - intros [[[->| ->]| ->]| ->]; [exists b0|exists b1|exists b0|exists b1]; cbn; auto.
      - intros (n & [<-|[<-|[]]] & [<-|[<-|[]]]); auto. }
    split; [unfold is_adjacent_with; rewrite Ea, Eb; reflexivity|]. split.
    - unfold is_adjacent_with; rewrite Ea, Eb.
      change (Ok ((b0 =? a0) || (b0 =? a1) || (b1 =? a0) || (b1 =? a1)) = Ok ((a0 =? b0) || (a0 =? b1) || (a1 =? b0) || (a1 =? b1))).
      f_equal. apply eq_true_iff_eq. rewrite !orb_true_iff, !Nat.eqb_eq. intuition congruence.
    - split; [exact Sh|]. intros B Ne. apply Sh in B as (n & K1 & K2). exists n. intros m. split; [|intros ->; auto].
      intros (M1 & M2). destruct (Nat.eq_dec m n) as [E|E]; [exact E|]. exfalso. apply Ne. apply (t_uniq h T); auto.
      rewrite Ea, Eb in *. intros x Hx. destruct K1 as [K1|[K1|[]]], K2 as [K2|[K2|[]]], M1 as [M1|[M1|[]]], M2 as [M2|[M2|[]]], Hx as [Hx|[Hx|[]]]; subst; cbn; try tauto; try congruence.
  Qed.

  Theorem face_edges_adjacent : forall h f e1 e2, topo_ok h -> In f (g_faces h) -> In e1 (f_edges h f) -> In e2 (f_edges h f) ->
    is_adjacent_with h e1 e2 = Ok true.
  Proof.
    intros h f e1 e2 T Hf H1 H2. destruct (t_face_edges h T f Hf) as (_ & _ & I).
    destruct (edges_adjacent h e1 e2 T (I _ H1) (I _ H2)) as (b & E & _ & B & _). rewrite E. f_equal. apply B.
    destruct (edge_nodes_two h e1 T (I _ H1)) as (a0 & a1 & Ea & Na). destruct (edge_nodes_two h e2 T (I _ H2)) as (b0 & b1 & Eb & Nb).
    pose proof (t_tri h T f e1 Hf H1) as I1. pose proof (t_tri h T f e2 Hf H2) as I2. rewrite Ea in *. rewrite Eb in *.
    destruct (t_face_nodes h T f Hf) as (L & _ & _). destruct (f_nodes h f) as [|x [|y [|w [|? ?]]]]; try discriminate L.
    pose proof (I1 a0 (or_introl eq_refl)) as A0. pose proof (I1 a1 (or_intror (or_introl eq_refl))) as A1.
    pose proof (I2 b0 (or_introl eq_refl)) as B0. pose proof (I2 b1 (or_intror (or_introl eq_refl))) as B1.
    cbn in A0, A1, B0, B1.
    destruct (Nat.eq_dec a0 b0); [exists a0; subst; cbn; auto|]. destruct (Nat.eq_dec a0 b1); [exists a0; subst; cbn; auto|].
    destruct (Nat.eq_dec a1 b0); [exists a1; subst; cbn; auto|]. destruct (Nat.eq_dec a1 b1); [exists a1; subst; cbn; auto|].
    exfalso. intuition congruence.
  Qed.
End P.
