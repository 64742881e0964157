(** A directory with two blocks of Lazurit. *)

From Coq Require Import ZArith Bool List Lia String Ascii Permutation Sorted.
From Verif Require Import Py PyLemmas TextLemmas Heap HeapLemmas GridModel GridSpec GridIO FileSpec StoreSpec Samples SamplesIO SamplesStore
  Convert ConvertSpec LazuritMain LazuritMainSpec LazuritMainProofs LazuritMainFinal.
Import ListNotations.
Open Scope list_scope.
Open Scope nat_scope.

(** str(-float(.)) for whole numbers. *)
Definition negz (e : str) : res str := match py_int e with Ok z => Ok (Z_str (Z.opp z)) | Raise x => Raise x end.

Lemma negz_word : forall z, word (Z_str z).
Proof. intros z. destruct (Z_faithful z) as (_ & Hne & Hsp). split; [exact Hne|exact Hsp]. Qed.

Lemma negz_ok : @negates ZOps Z.opp negz.
Proof.
  intros e v H. cbn in H. unfold negz. destruct (py_int e) as [z|]; [|discriminate H]. injection H as <-.
  exists (Z_str (Z.opp z)). split; [reflexivity|]. split; [apply negz_word|]. apply (Z_faithful (Z.opp z)).
Qed.

Lemma negz_number : forall e e', negz e = Ok e' -> word e' /\ exists v, @prs ZOps e = Some v.
Proof.
  intros e e' H. unfold negz in H. cbn. destruct (py_int e) as [z|]; [|discriminate H]. injection H as <-. split; [apply negz_word|eauto].
Qed.

(** The files of a block with one cell. *)
Definition grid_text (x : string) : str := text_of
  ["FILETYPE = GRID"; "VARIABLES = X Y Z"; "ZONE T=""3_Block-3"""; "I=     2 J=    2 K=     1"; "ZONETYPE = Ordered"; " STRANDID=      3";
   x; "0 0 1"; "1  0 0 0 0"]%string.
Definition solution_text (t : string) : str := text_of
  ["FILETYPE = SOLUTION"; "VARIABLES = T Hw"; "ZONE T=""3_Block-3"""; "I= 1 J= 1 K= 1"; "ZONETYPE = Ordered"; " STRANDID=      3";
   t; "2 3 4 5 6"; "7 8"]%string.
Definition two_blocks : list (str * str) :=
  [(lit "TEC_WALL_Solution_wing_B-1.TEC", solution_text "1"); (lit "readme", lit "text"); (lit "TEC_WALL_Grid_tail_B-1.TEC", grid_text "10 11 10 11");
   (lit "TEC_WALL_Solution_tail_B-1.TEC", solution_text "9"); (lit "TEC_WALL_Grid_wing_B-1.TEC", grid_text "0 1 0 1")].
Definition two_names : list str := [lit "wing_B-1.TEC"; lit "tail_B-1.TEC"].

Definition cell_block (x0 t : Z) : @wall_block ZOps := @WBlock ZOps 2 2 [x0; x0 + 1; x0; x0 + 1]%Z [0; 0; 1; 1]%Z [0; 0; 0; 0]%Z [[t]; [2]; [3]; [4]; [5]; [6]; [7]; [8]]%Z.
Definition blocks_of (s : str) : @wall_block ZOps := if str_dec s (lit "wing_B-1.TEC") then cell_block 0 1 else cell_block 10 9.

Lemma two_nodup : NoDup (map fst two_blocks).
Proof. cbn [map fst two_blocks]. repeat (constructor; [cbn; intros K; repeat destruct K as [K|K]; try discriminate; auto|]). constructor. Qed.

Lemma two_files : Permutation (filter (contains (lit ".TEC")) (map fst two_blocks)) (map grid_name two_names ++ map solution_name two_names).
Proof.
  replace (filter (contains (lit ".TEC")) (map fst two_blocks)) with
    [solution_name (lit "wing_B-1.TEC"); grid_name (lit "tail_B-1.TEC"); solution_name (lit "tail_B-1.TEC"); grid_name (lit "wing_B-1.TEC")] by (vm_compute; reflexivity).
  cbn [map two_names app]. generalize (solution_name (lit "wing_B-1.TEC")), (grid_name (lit "tail_B-1.TEC")), (solution_name (lit "tail_B-1.TEC")), (grid_name (lit "wing_B-1.TEC")).
  intros a b c d. apply Permutation_sym. apply (Permutation_cons_app [a; b; c] []). cbn [app].
  apply (Permutation_cons_app [a] [c]). cbn [app]. apply Permutation_refl.
Qed.

Lemma cell_files : forall gt st x0 t, gt = grid_text "0 1 0 1" /\ x0 = 0%Z \/ gt = grid_text "10 11 10 11" /\ x0 = 10%Z ->
  st = solution_text "1" /\ t = 1%Z \/ st = solution_text "9" /\ t = 9%Z -> @block_files ZOps gt st (cell_block x0 t).
Proof.
  intros gt st x0 t Hg Hs. split; [|split; [|split]].
  - unfold whole_block, cell_block, wb_cells. cbn. repeat split; auto. intros l I. repeat destruct I as [<-|I]; try reflexivity. destruct I.
  - destruct Hg as [(-> & _)|(-> & _)]; (eexists; eexists; eexists; eexists); (split; [vm_compute; reflexivity|]);
      (split; [vm_compute; reflexivity|]); (split; [vm_compute; reflexivity|]); (split; [vm_compute; reflexivity|]); repeat split; vm_compute; reflexivity.
  - destruct Hg as [(-> & ->)|(-> & ->)]; eexists; exists []; rewrite app_nil_r; (split; [vm_compute; reflexivity|]); repeat (constructor; [vm_compute; reflexivity|]); constructor.
  - destruct Hs as [(-> & ->)|(-> & ->)]; eexists; exists []; rewrite app_nil_r; (split; [vm_compute; reflexivity|]); repeat (constructor; [vm_compute; reflexivity|]); constructor.
Qed.

Lemma two_block : forall s, In s two_names -> block_of two_blocks s (lit "B-1") (blocks_of s).
Proof.
  intros s I.
  assert (C : forall x, In x (lit "B-1") -> x <> eqsign /\ x <> nl /\ x <> cr) by (intros x K; cbn in K; repeat destruct K as [<-|K]; try contradiction; repeat split; discriminate).
  destruct I as [<-|[<-|[]]]; unfold blocks_of.
  - exists (grid_text "0 1 0 1"), (solution_text "1"). split; [right; right; right; right; left; reflexivity|]. split; [left; reflexivity|]. split; [apply cell_files; auto|].
    split; [|exact C]. exists (lit "TEC_WALL_Grid_wing_"), (lit "-1"), (lit ".TEC"). split; [reflexivity|]. split; [reflexivity|]. split; [|reflexivity].
    cbn. intros K. repeat destruct K as [K|K]; try discriminate; auto.
  - exists (grid_text "10 11 10 11"), (solution_text "9"). split; [right; right; left; reflexivity|]. split; [right; right; right; left; reflexivity|]. split; [apply cell_files; auto|].
    split; [|exact C]. exists (lit "TEC_WALL_Grid_tail_"), (lit "-1"), (lit ".TEC"). split; [reflexivity|]. split; [reflexivity|]. split; [|reflexivity].
    cbn. intros K. repeat destruct K as [K|K]; try discriminate; auto.
Qed.

(** The zone of a block with one cell. *)
Definition cell_zone (x0 t : Z) : @zone_rec ZOps :=
  @mkZone ZOps (lit "B-1") wall_names [(x0, 0, 0); (x0 + 1, 0, 0); (x0, 1, 0); (x0 + 1, 1, 0)]%Z
    [[t; 2; 3; 4; 5; -6; -7; -8]; [t; 2; 3; 4; 5; -6; -7; -8]]%Z [(0, 2, 3); (0, 3, 1)].

Lemma f2_row : forall (ls : list (list Z)) row, Forall2 (fun l v => nth_error l 0 = Some v) ls row -> map Some row = map (fun l => nth_error l 0) ls.
Proof. intros ls row H. induction H; [reflexivity|]. cbn [map]. congruence. Qed.

Lemma cell_zone_ok : forall x0 t zr, @zone_of_block ZOps Z.opp (lit "B-1") (cell_block x0 t) zr -> zr = cell_zone x0 t.
Proof.
  intros x0 t [nm vs pts dt cn] (En & Ev & Ep & Lc & Ld & Hc & Hd). cbn [zr_name zr_vars zr_pts zr_data zr_conn] in *.
  cbn in Lc, Ld. unfold cell_zone. subst nm vs pts.
  destruct cn as [|c1 [|c2 [|]]]; try discriminate Lc. destruct dt as [|r1 [|r2 [|]]]; try discriminate Ld.
  destruct (Hc 0 0 ltac:(cbn; lia) ltac:(cbn; lia)) as [C1 C2]. cbn in C1, C2. injection C1 as ->. injection C2 as ->.
  assert (R1 := f2_row _ _ (Hd 0 0 r1 ltac:(cbn; lia) ltac:(lia) eq_refl)). assert (R2 := f2_row _ _ (Hd 0 1 r2 ltac:(cbn; lia) ltac:(lia) eq_refl)). cbn in R1, R2.
  assert (G : forall r, map Some r = map Some [t; 2; 3; 4; 5; -6; -7; -8]%Z -> r = [t; 2; 3; 4; 5; -6; -7; -8]%Z).
  { intros r E. revert E. generalize [t; 2; 3; 4; 5; -6; -7; -8]%Z. clear. induction r as [|a r IH]; intros [|b l] E; try discriminate E; [reflexivity|]. cbn in E. injection E as -> E. f_equal. auto. }
  rewrite (G r1 R1), (G r2 R2). reflexivity.
Qed.

(** Faces without three on an edge. *)
Definition rc_eqb (a b : Z * Z * Z) : bool := let '(x, y, z) := a in let '(x', y', z') := b in (Z.eqb x x' && Z.eqb y y' && Z.eqb z z')%bool.
Lemma rc_eqb_ok : forall a b, rc_eqb a b = true <-> a = b.
Proof.
  intros [[x y] z] [[x' y'] z']. cbn. rewrite !andb_true_iff, !Z.eqb_eq. split; [intros [[-> ->] ->]; reflexivity|intros E; injection E; auto].
Qed.
Definition common (a b c : list (Z * Z * Z)) : list (Z * Z * Z) := filter (fun x => existsb (rc_eqb x) b && existsb (rc_eqb x) c)%bool a.
Lemma common_in : forall a b c x, In x a -> In x b -> In x c -> In x (common a b c).
Proof.
  intros a b c x A B C. apply filter_In. split; [exact A|]. apply andb_true_iff. split; apply existsb_exists; exists x; (split; [assumption|apply rc_eqb_ok; reflexivity]).
Qed.
Definition manifold4 (zs : list (@zone_rec ZOps)) : bool :=
  let fs := @file_faces ZOps zs in
  (Nat.eqb (List.length fs) 4 &&
   forallb (fun ijk => let '(i, j, k) := ijk in Nat.leb (List.length (common (nth i fs []) (nth j fs []) (nth k fs []))) 1) [(0, 1, 2); (0, 1, 3); (0, 2, 3); (1, 2, 3)])%bool.
Lemma manifold4_ok : forall zs, manifold4 zs = true -> ~ @three_share ZOps zs.
Proof.
  intros zs H. unfold manifold4 in H. apply andb_true_iff in H as [L H]. apply Nat.eqb_eq in L.
  intros (i & j & k & ti & tj & tk & p & q & Hij & Hjk & Npq & Ei & Ej & Ek & (Pi & Qi) & (Pj & Qj) & (Pk & Qk)).
  set (fs := @file_faces ZOps zs) in *. assert (Hk : k < 4) by (rewrite <- L; apply nth_error_Some; congruence).
  rewrite forallb_forall in H.
  assert (I : In (i, j, k) [(0, 1, 2); (0, 1, 3); (0, 2, 3); (1, 2, 3)]).
  { destruct k as [|[|[|[|k]]]]; try lia; destruct j as [|[|[|j]]]; try lia; destruct i as [|[|i]]; try lia; cbn; tauto. }
  specialize (H _ I). apply Nat.leb_le in H. rewrite (nth_error_nth _ _ _ Ei), (nth_error_nth _ _ _ Ej), (nth_error_nth _ _ _ Ek) in H.
  pose proof (common_in _ _ _ p Pi Pj Pk) as Ip. pose proof (common_in _ _ _ q Qi Qj Qk) as Iq.
  destruct (common ti tj tk) as [|a [|b l]]; [destruct Ip| |cbn in H; lia]. destruct Ip as [<-|[]], Iq as [<-|[]]. congruence.
Qed.

Lemma cells_ok : forall zrs, zrs = [cell_zone 0 1; cell_zone 10 9] \/ zrs = [cell_zone 10 9; cell_zone 0 1] ->
  @no_degenerate ZOps zrs /\ ~ @three_share ZOps zrs /\ (exists zr, In zr zrs /\ zr_conn zr <> []).
Proof.
  intros zrs H. split; [|split].
  - intros t It. destruct H as [->| ->]; vm_compute in It; repeat destruct It as [<-|It]; try contradiction;
      repeat (constructor; [cbn; intros K; repeat destruct K as [K|K]; try discriminate; auto|]); constructor.
  - apply manifold4_ok. destruct H as [->| ->]; vm_compute; reflexivity.
  - destruct H as [->| ->]; eexists; (split; [left; reflexivity|discriminate]).
Qed.

Lemma two_run : exists out h' zrs, @lazurit_to_crystal ZOps negz two_blocks empty_heap = (Ok out, h') /\ Permutation zrs [cell_zone 0 1; cell_zone 10 9] /\
  forall h0, exists h2, load true out h0 = (Ok tt, h2) /\ @grid_ok ZOps h2 /\ @holds_zones ZOps zrs h2.
Proof.
  destruct (@lazurit_ok ZOps Z.opp negz Z_faithful negz_ok two_blocks two_names (fun _ => lit "B-1") blocks_of two_nodup two_files two_block) as (bs & zrs & P & _ & Fz & K & _).
  assert (D : zrs = [cell_zone 0 1; cell_zone 10 9] \/ zrs = [cell_zone 10 9; cell_zone 0 1]).
  { apply Permutation_sym in P. apply Permutation_length_2_inv in P as [->| ->]; inversion Fz as [|? z1 ? ? Z1 F1]; subst; inversion F1 as [|? z2 ? ? Z2 F2]; subst; inversion F2; subst.
    - left. apply cell_zone_ok in Z1, Z2. subst. reflexivity.
    - right. apply cell_zone_ok in Z1, Z2. subst. reflexivity. }
  destruct (cells_ok _ D) as (Nd & T & Hf). destruct (K Nd T Hf empty_heap) as (out & h' & E & R). exists out, h', zrs. split; [exact E|]. split; [|exact R].
  destruct D as [->| ->]; [apply Permutation_refl|apply perm_swap].
Qed.

Lemma same_names : exists (F : FloatOps) opp neg dir bs nm bk out h' zrs,
  faithful_numbers /\ negates opp neg /\ NoDup (map fst dir) /\ NoDup bs /\
  Permutation (filter (contains (lit ".TEC")) (map fst dir)) (map grid_name bs ++ map solution_name bs) /\
  (forall s, In s bs -> block_of dir s (nm s) (bk s)) /\
  lazurit_to_crystal neg dir empty_heap = (Ok out, h') /\
  (forall h0, exists h2, load true out h0 = (Ok tt, h2) /\ holds_zones zrs h2) /\
  List.length zrs = 2 /\ ~ NoDup (map zr_name zrs).
Proof.
  destruct two_run as (out & h' & zrs & E & P & R).
  exists ZOps, Z.opp, negz, two_blocks, two_names, (fun _ => lit "B-1"), blocks_of, out, h', zrs.
  split; [exact Z_faithful|]. split; [exact negz_ok|]. split; [exact two_nodup|].
  split. { unfold two_names. constructor; [intros [K|[]]; discriminate K|]. constructor; [intros []|constructor]. }
  split; [exact two_files|]. split; [exact two_block|]. split; [exact E|].
  split. { intros h0. destruct (R h0) as (h2 & A & _ & B). exists h2. auto. }
  split. { rewrite (Permutation_length P). reflexivity. }
  intros N. apply (Permutation_NoDup (Permutation_map zr_name P)) in N. cbn [map] in N. inversion N as [|? ? K _]; subst. apply K. left. reflexivity.
Qed.

Lemma names_end : forall f1 f2 name, names_zone f1 name -> names_zone f2 name ->
  exists p1 p2 e1 e2, f1 = p1 ++ name ++ e1 /\ f2 = p2 ++ name ++ e2 /\ List.length e1 = 4 /\ List.length e2 = 4.
Proof.
  intros f1 f2 name (p1 & q1 & e1 & -> & L1 & _ & E1) (p2 & q2 & e2 & -> & L2 & _ & E2). exists p1, p2, e1, e2.
  subst name. injection E2 as <-. auto.
Qed.
