(** The program ansys_to_crystal.py run on concrete files. *)

From Coq Require Import ZArith Reals Lra Bool List Lia String Ascii.
From Verif Require Import Py PyLemmas TextLemmas Heap GridSpec FileSpec GridModel GridIO StoreSpec Samples SamplesStore Geom Convert ConvertSpec
  Ansys AnsysSpec AnsysText AnsysProofs AnsysMore AnsysExportSpec AnsysCases AnsysMain AnsysMainSpec AnsysMainText AnsysMainProofs AnsysMainFinal AnsysMainCases.
Import ListNotations.
Open Scope list_scope.
Open Scope nat_scope.

Lemma node_of_rows_fun : forall fl rs t v cp cf cd ca f d a n n', v <> 0%R -> cp <> 0%R ->
  node_of_rows fl rs t v cp cf cd ca f d a n -> node_of_rows fl rs t v cp cf cd ca f d a n' -> n = n'.
Proof.
  intros fl rs t v cp cf cd ca f d a [[px py pz] [h b tx ty tz r]] [[px' py' pz'] [h' b' tx' ty' tz' r']] Hv Hcp
    (x & y & z & ts & sx & sy & sz & q & d1 & d2 & d3 & beta & a1 & a2 & a3 & st & vts & vst & vq & htc & rf & Pf & Pd & Pa &
       Cx & Cy & Cz & Fb & Fx & Fy & Fz & Fts & Fst & Fq & Ne & Erf & Eh & Dh & Dr)
    (x' & y' & z' & ts' & sx' & sy' & sz' & q' & e1 & e2 & e3 & beta' & b1 & b2 & b3 & st' & vts' & vst' & vq' & htc' & rf' & Pf' & Pd' & Pa' &
       Cx' & Cy' & Cz' & Fb' & Fx' & Fy' & Fz' & Fts' & Fst' & Fq' & Ne' & Erf' & Eh' & Dh' & Dr').
  rewrite Pf in Pf'. injection Pf' as <- <- <- <- <- <- <- <-. rewrite Pd in Pd'. injection Pd' as _ _ _ <-. rewrite Pa in Pa'. injection Pa' as _ _ _ <-.
  cbn [cn_point cn_data vx vy vz c_htc c_beta c_taux c_tauy c_tauz c_rf] in *.
  rewrite Fq in Fq'. injection Fq' as <-. rewrite Fts in Fts'. injection Fts' as <-. rewrite Fst in Fst'. injection Fst' as <-.
  assert (htc' = htc). { apply (Rmult_eq_reg_r (vts - vst)); [rewrite Eh, Eh'; reflexivity|lra]. }
  assert (rf' = rf).
  { rewrite Erf in Erf'. assert (E : (rf * (v * v) / (2 * cp) = rf' * (v * v) / (2 * cp))%R) by lra.
    assert (N2 : (v * v / (2 * cp))%R <> 0%R).
    { unfold Rdiv. apply Rmult_integral_contrapositive_currified; [apply Rmult_integral_contrapositive_currified; auto|]. apply Rinv_neq_0_compat. lra. }
    apply (Rmult_eq_reg_r (v * v / (2 * cp))%R); auto. unfold Rdiv in *. lra. }
  subst htc' rf'.
  rewrite (coordinate_fun _ _ _ _ Cx Cx'), (coordinate_fun _ _ _ _ Cy Cy'), (coordinate_fun _ _ _ _ Cz Cz'). congruence.
Qed.

Definition wing_zone (z : fzone) : Prop :=
  fz_title z = lit "wing" /\ fz_nodes z = wing_nodes /\ exists a b c, fz_faces z = [(a, b, c)] /\ In (a, b, c) [(0, 1, 2); (1, 2, 0); (2, 0, 1)].

Lemma wing_zones : forall gs, zip4 (zone_of_blocks whole_fl whole_part 270 1 1 [0; 1; 2; 4; 5; 6; 7; 8] [0; 1; 2; 3] [0; 1; 2; 3] false) [flow_wing] [drop_wing] [adia_wing] gs ->
  exists z, gs = [z] /\ wing_zone z.
Proof.
  intros gs H. inversion H as [|? ? ? z ? ? ? gs' (T & Zn & quads & groups & Fq & Fg & Ef) Hn]; subst. inversion Hn; subst. exists z. split; [reflexivity|].
  split; [exact T|]. split.
  - destruct wing_readable as (_ & _ & Zw & _). clear -Zn Zw. revert Zn Zw. generalize (b_nodes flow_wing), (b_nodes drop_wing), (b_nodes adia_wing), (fz_nodes z), wing_nodes.
    intros l1 l2 l3 n1 n2 Z1. revert n2. induction Z1 as [|f d a n lf ld la ns N Z IH]; intros n2 Z2; inversion Z2; subst; [reflexivity|].
    f_equal; [|apply IH; auto]. eapply node_of_rows_fun; [| |exact N|eassumption]; lra.
  - cbn [b_elems flow_wing] in Fq. inversion Fq as [|? q ? qs Q Fq']; subst. inversion Fq'; subst. inversion Fg as [|? g ? gs S Fg']; subst. inversion Fg'; subst.
    assert (q = (0, 1, 2, 2)).
    { destruct Q as [_ Q]. destruct q as [[[a b] c] d]. change (split_ws (ln "1 2 3 3")) with [lit "1"; lit "2"; lit "3"; lit "3"] in Q. cbn [ConvertSpec.corners] in Q.
      inversion Q as [|? ? ? ? [Q1 _] Q']; subst. inversion Q' as [|? ? ? ? [Q2 _] Q'']; subst. inversion Q'' as [|? ? ? ? [Q3 _] Q3']; subst. inversion Q3' as [|? ? ? ? [Q4 _] _]; subst.
      vm_compute (py_int _) in Q1. vm_compute (py_int _) in Q2. vm_compute (py_int _) in Q3. vm_compute (py_int _) in Q4.
      injection Q1 as Q1. injection Q2 as Q2. injection Q3 as Q3. injection Q4 as Q4.
      repeat f_equal; lia. }
    subst q. destruct S as (_ & S & _). destruct S as (t & -> & P & _ & E); [reflexivity|]. specialize (E ltac:(cbn; auto)).
    destruct t as [[a b] c]. exists a, b, c. rewrite Ef. split; [reflexivity|].
    cbn [edges3 oriented boundary real_edges filter fst snd Nat.eqb negb] in E.
    assert (I1 : In (a, b) [(0, 1); (1, 2); (2, 0)]) by (eapply Permutation.Permutation_in; [exact E|left; auto]).
    assert (I2 : In (b, c) [(0, 1); (1, 2); (2, 0)]) by (eapply Permutation.Permutation_in; [exact E|right; left; auto]).
    cbn in I1, I2 |- *. destruct I1 as [I1|[I1|[I1|[]]]], I2 as [I2|[I2|[I2|[]]]]; inversion I1; inversion I2; subst; try discriminate; auto.
Qed.

(** The zone of the file. *)
Definition wing_points : list (@pt ZOps) := [(0, 0, 0); (1, 0, 0); (0, 1, 0)]%Z.
Definition wing_rec (zr : @zone_rec ZOps) : Prop :=
  zr_name zr = lit "wing" /\ zr_vars zr = data_names /\ zr_pts zr = wing_points /\ zr_data zr = [[6; 20; 4; 5; 6; 24]%Z] /\
  exists a b c, zr_conn zr = [(a, b, c)] /\ In (a, b, c) [(0, 1, 2); (1, 2, 0); (2, 0, 1)].

Lemma Int_IZR : forall z, Int_part (IZR z) = z.
Proof. intros z. apply eq_IZR. apply whole_IZR. Qed.

Lemma Int_is : forall x z, x = IZR z -> Int_part x = z.
Proof. intros x z ->. apply Int_IZR. Qed.

Lemma cons_same : forall {A} (a b : A) l l', a = b -> l = l' -> a :: l = b :: l'.
Proof. intros; subst; reflexivity. Qed.

Lemma wing_record : forall z zr, wing_zone z -> @exported ZOps Int_part z zr -> wing_rec zr.
Proof.
  intros z zr (T & N & a & b & c & Ef & I) (En & Ev & Ep & Ec & Fr). rewrite N in Ep. rewrite Ef in Ec, Fr.
  split; [congruence|]. split; [exact Ev|]. split.
  { rewrite Ep. unfold wing_nodes. cbn [map cn_point vx vy vz]. rewrite !Int_IZR. reflexivity. }
  split; [|exists a, b, c; auto].
  inversion Fr as [|? row ? rows M Fr']; subst. inversion Fr'; subst. f_equal.
  cbn in I. destruct I as [I|[I|[I|[]]]]; injection I as <- <- <-; destruct M as (na & nb & nc & E1 & E2 & E3 & ->); rewrite N in E1, E2, E3; cbn in E1, E2, E3;
    injection E1 as <-; injection E2 as <-; injection E3 as <-; cbn [map data_fields cn_data c_htc c_beta c_taux c_tauy c_tauz c_rf];
    repeat (apply cons_same; [apply Int_is; lra|]); reflexivity.
Qed.

Lemma wing_nd : forall zr, wing_rec zr -> no_degenerate [zr] /\ ~ three_share [zr] /\ (exists z, In z [zr] /\ zr_conn z <> []).
Proof.
  intros zr (_ & _ & Ep & _ & a & b & c & Ec & I).
  assert (Ff : exists x y z, file_faces [zr] = [[x; y; z]] /\ NoDup [x; y; z]).
  { unfold file_faces. cbn [flat_map]. rewrite Ec. cbn [map app FileSpec.corners]. rewrite Ep.
    cbn in I. destruct I as [I|[I|[I|[]]]]; injection I as <- <- <-; cbn [nth_error wing_points flat_map app];
      eexists; eexists; eexists; (split; [reflexivity|]); repeat (constructor; [cbn; intros K; repeat destruct K as [K|K]; try discriminate; auto|]); constructor. }
  destruct Ff as (x & y & z & Ff & Nd). split; [|split].
  - intros t It. rewrite Ff in It. destruct It as [<-|[]]. exact Nd.
  - intros (i & j & k & ti & tj & tk & p & q & Hij & Hjk & _ & _ & Ej & _). rewrite Ff in Ej. destruct j as [|j]; [lia|]. destruct j; discriminate.
  - exists zr. split; [left; auto|]. rewrite Ec. discriminate.
Qed.

(** The stored file holds one zone with one face. *)
Lemma wing_run : exists out h', @ansys_to_crystal ZOps whole_fl whole_fmt whole_fmt (lit "wing") 270 1 1 false
    (text_of_src flow_src) (text_of_src drop_src) (text_of_src adia_src) empty_heap = (Ok out, h') /\
  forall h0, exists h2 zr, load true out h0 = (Ok tt, h2) /\ wing_rec zr /\ holds_zones [zr] h2.
Proof.
  destruct (@program_ok ZOps whole_fl whole_fmt whole_fmt whole_part Int_part 270 1 1 Z_faithful ltac:(lra) ltac:(lra) whole_number whole_read whole_word whole_prs
    (lit "wing") false _ _ _ _ _ _ _ _ _ [flow_wing] [drop_wing] [adia_wing] [wing_nodes]
    ltac:(apply no_char; reflexivity) flow_text drop_text adia_text flow_columns drop_columns adia_columns
    (wing_kept flow_src _ _ eq_refl eq_refl eq_refl) (wing_kept drop_src _ _ eq_refl eq_refl eq_refl) (wing_kept adia_src _ _ eq_refl eq_refl eq_refl) eq_refl eq_refl)
    as (gs & zrs & Zg & Fx & K & _).
  { apply zip4_cons; [exact wing_readable|apply zip4_nil]. }
  { intros b x [<-|[]] I. cbn in I. repeat destruct I as [<-|I]; try contradiction; repeat split; discriminate. }
  destruct (wing_zones _ Zg) as (z & -> & Wz). inversion Fx as [|? zr ? zrs' Xz Fx']; subst. inversion Fx'; subst.
  pose proof (wing_record _ _ Wz Xz) as Wr. destruct (wing_nd _ Wr) as (Nd & T & Hf).
  destruct (K Nd T Hf empty_heap) as (out & h' & E & R). exists out, h'. split; [exact E|]. intros h0. destruct (R h0) as (h2 & L & _ & Hz). exists h2, zr. auto.
Qed.
