(** Concrete files for the examples beside the theorems about crys.py as a whole: a square with
    ice and a strip of three faces with different heights. *)

From Coq Require Import ZArith Reals Ascii String Bool Lia Lra List.
From Verif Require Import Py PyLemmas Heap GridModel GridSpec Mpi MpiSpec GridIO FileSpec StoreSpec Samples SamplesIO SamplesStore LoadProps DriverSpec Geom GeomProofs
  Programs ProgramsSpec ProgramsProofs ProgramsMore ProgramsCases ExchangeSpec Crys CrysSpec CrysProofs CrysFinal.
From Verif Require Remesh RemeshSpec DirProofs StepsProofs RemeshMore Drops.
Import ListNotations.
Open Scope list_scope.
Open Scope nat_scope.

(** Numbers of the examples are integers. *)
Definition zplus (x : @val ZOps) (k : Z) : @val ZOps := (x + k)%Z.

Definition head6 (name : string) (n m : string) : list string :=
  [("ZONE T=""" ++ name ++ """")%string; ("NODES=" ++ n)%string; ("ELEMENTS=" ++ m)%string;
   "DATAPACKING=BLOCK"%string; "ZONETYPE=FETRIANGLE"%string; "VARLOCATION=([4-6]=CELLCENTERED)"%string].

Section Chain.
  Context {F : FloatOps}.
  Definition adjacentb (h : heap) (f g : nat) : bool :=
    negb (Nat.eqb f g) && existsb (fun e => existsb (Nat.eqb f) (e_faces h e) && existsb (Nat.eqb g) (e_faces h e)) (f_edges h f).
  Lemma adjacentb_ok : forall h f g, adjacentb h f g = true -> adjacent h f g.
  Proof.
    intros h f g H. apply andb_true_iff in H as [A B]. apply negb_true_iff, Nat.eqb_neq in A. split; [exact A|].
    apply existsb_exists in B as (e & He & B). apply andb_true_iff in B as [B1 B2]. exists e. split; [exact He|].
    split; [apply existsb_exists in B1 as (x & Hx & E)|apply existsb_exists in B2 as (x & Hx & E)]; apply Nat.eqb_eq in E; subst x; exact Hx.
  Qed.

  Lemma chain2 : forall h, g_faces h = [0; 1] -> adjacentb h 0 1 = true -> adjacentb h 1 0 = true -> connected h (g_faces h).
  Proof.
    intros h -> A B f g [<-|[<-|[]]] [<-|[<-|[]]].
    - apply reach_refl. left; reflexivity.
    - apply (reach_step _ _ _ 0); [apply reach_refl; left; reflexivity|apply adjacentb_ok; exact A|right; left; reflexivity].
    - apply (reach_step _ _ _ 1); [apply reach_refl; right; left; reflexivity|apply adjacentb_ok; exact B|left; reflexivity].
    - apply reach_refl. right; left; reflexivity.
  Qed.

  Lemma chain3 : forall h, g_faces h = [0; 1; 2] -> adjacentb h 0 1 = true -> adjacentb h 1 0 = true -> adjacentb h 1 2 = true -> adjacentb h 2 1 = true ->
    connected h (g_faces h).
  Proof.
    intros h -> A B C D. apply adjacentb_ok in A, B, C, D.
    assert (I0 : In 0 [0; 1; 2]) by (left; reflexivity). assert (I1 : In 1 [0; 1; 2]) by (right; left; reflexivity).
    assert (I2 : In 2 [0; 1; 2]) by (right; right; left; reflexivity).
    assert (T : forall f, In f [0; 1; 2] -> reach h (fun x => In x [0; 1; 2]) f 1).
    { intros f [<-|[<-|[<-|[]]]]; [apply (reach_step _ _ _ 0)| |apply (reach_step _ _ _ 2)]; auto; apply reach_refl; assumption. }
    intros f g Hf [<-|[<-|[<-|[]]]]; [apply (reach_step _ _ _ 1)| |apply (reach_step _ _ _ 1)]; auto.
  Qed.

  Lemma all_have_list : forall h names, forallb (fun f => forallb (fun k => match dget str_dec (f_data h f) k with Some _ => true | None => false end) names) (g_faces h) = true ->
    all_have h names.
  Proof.
    intros h names H f k Hf Hk. rewrite forallb_forall in H. specialize (H f Hf). rewrite forallb_forall in H. specialize (H k Hk).
    destruct (dget str_dec (f_data h f) k); [eauto|discriminate H].
  Qed.
End Chain.

(** ** A square with ice *)

Definition sq_text : str := text_of
  (["TITLE=""ice"""; "VARIABLES=""X"", ""Y"", ""Z"", ""T"", ""Hi"", ""Hw"""]%string ++
   head6 "A" "4" "2" ++ ["0 1 1 0"; "0 0 1 1"; "0 0 0 0"; "7 8"; "-1 -1"; "5 6"; "1 2 3"; "1 3 4"]%string).
Definition sq_zone : @zone_rec ZOps := mkZone (lit "A") [lit "T"; lit "Hi"; lit "Hw"]
  [(0, 0, 0); (1, 0, 0); (1, 1, 0); (0, 1, 0)]%Z [[7; -1; 5]; [8; -1; 6]]%Z [(0, 1, 2); (0, 2, 3)].
Definition sq_evs : list (@event ZOps) := [ETitle (lit "ice"); EZone sq_zone].

Lemma sq_form : @file_form ZOps [] (file_lines sq_text) sq_evs.
Proof.
  vm_compute file_lines.
  apply ff_title; [split; [discriminate|]; split; [reflexivity|]; eexists; split; reflexivity|].
  vars_tac. zone_tac sq_zone. apply ff_end.
Qed.

Lemma sq_nd : @no_degenerate ZOps (zones_of sq_evs).
Proof.
  intros t Ht. vm_compute in Ht. destruct Ht as [<-|[<-|[]]];
    repeat (constructor; [cbn; intuition discriminate|]); constructor.
Qed.
Lemma sq_some : @faces_in ZOps (zones_of sq_evs) <> 0.
Proof. vm_compute. discriminate. Qed.

Definition sq_heap : @heap ZOps := snd (load true sq_text (new_grid empty_heap)).
Lemma sq_run : load true sq_text (new_grid empty_heap) = (Ok tt, sq_heap).
Proof.
  assert (E : fst (load true sq_text (@new_grid ZOps empty_heap)) = Ok tt) by (vm_compute; reflexivity).
  exact (ok_pair (load true sq_text (new_grid empty_heap)) E).
Qed.

Lemma sq_faces : g_faces sq_heap = [0; 1].
Proof. vm_compute. reflexivity. Qed.
Lemma sq_nodes : g_nodes sq_heap = [0; 1; 2; 3].
Proof. vm_compute. reflexivity. Qed.
Lemma sq_corners : f_nodes sq_heap 0 = [0; 1; 2] /\ f_nodes sq_heap 1 = [0; 2; 3].
Proof. vm_compute. auto. Qed.
Lemma sq_pos : n_p sq_heap 0 = (0, 0, 0)%Z /\ n_p sq_heap 1 = (1, 0, 0)%Z /\ n_p sq_heap 2 = (1, 1, 0)%Z /\ n_p sq_heap 3 = (0, 1, 0)%Z.
Proof. vm_compute. repeat split. Qed.
Lemma sq_hi : var_value sq_heap 0 (lit "Hi") = (-1)%Z /\ var_value sq_heap 1 (lit "Hi") = (-1)%Z.
Proof. vm_compute. split; reflexivity. Qed.
Lemma sq_have : all_have sq_heap work_vars.
Proof. apply all_have_list. vm_compute. reflexivity. Qed.
Lemma sq_chain : connected sq_heap (g_faces sq_heap).
Proof. apply chain2; vm_compute; reflexivity. Qed.
Opaque sq_heap.

Lemma sq_used : forall p, In p (all_pts (zones_of sq_evs)) -> used (zones_of sq_evs) p.
Proof.
  intros p Hp. vm_compute in Hp. unfold used.
  assert (E : @file_faces ZOps (zones_of sq_evs) = [[(0, 0, 0); (1, 0, 0); (1, 1, 0)]; [(0, 0, 0); (1, 1, 0); (0, 1, 0)]]%Z)
    by (vm_compute; reflexivity).
  rewrite E. destruct Hp as [<-|[<-|[<-|[<-|[]]]]].
  - eexists. split; [left; reflexivity|]. left. reflexivity.
  - eexists. split; [left; reflexivity|]. right. left. reflexivity.
  - eexists. split; [left; reflexivity|]. right. right. left. reflexivity.
  - eexists. split; [right; left; reflexivity|]. right. right. left. reflexivity.
Qed.

Lemma sq_flat : forall f a b c, In f (g_faces sq_heap) -> f_nodes sq_heap f = [a; b; c] ->
  normal_orth (Tri (vect_of zreal (n_p sq_heap a)) (vect_of zreal (n_p sq_heap b)) (vect_of zreal (n_p sq_heap c)) f) = Ok (V3 0 0 1).
Proof.
  intros f a b c Hf E. destruct sq_pos as (P0 & P1 & P2 & P3). rewrite sq_faces in Hf. destruct sq_corners as [C0 C1].
  destruct Hf as [<-|[<-|[]]]; [rewrite C0 in E|rewrite C1 in E]; injection E as <- <- <-; rewrite ?P0, ?P1, ?P2, ?P3;
    apply unit_normal; unfold vect_of, zreal, cross, vsub; cbn; apply vect_eq; cbn; ring.
Qed.

Lemma sq_height : forall f, In f (g_faces sq_heap) -> var_value sq_heap f (lit "Hi") = (-1)%Z.
Proof. intros f Hf. rewrite sq_faces in Hf. destruct sq_hi as [A B]. destruct Hf as [<-|[<-|[]]]; assumption. Qed.

Lemma iced_pos : forall h : @heap ZOps, Remesh.n_pos (st_of zreal (iced zplus h)) = fun n => vect_of zreal (n_p h n).
Proof. reflexivity. Qed.

Lemma sq_steps : Remesh.calculate_nsteps (RemeshMore.two_steps true) (topo_of sq_heap) (st_of zreal (iced zplus sq_heap)) = Ok 2%Z.
Proof.
  assert (X : exists n, Remesh.calculate_nsteps (RemeshMore.two_steps true) (topo_of sq_heap) (st_of zreal (iced zplus sq_heap)) = Ok n).
  { apply StepsProofs.nsteps_found; [cbn; lia| | |cbn; lra|cbn; lra].
    - cbn [topo_of Remesh.faces]. rewrite sq_faces. discriminate.
    - intros f Hf. cbn [topo_of Remesh.faces] in Hf. apply RemeshMore.side_pos.
      assert (E : exists a b c, f_nodes sq_heap f = [a; b; c]).
      { rewrite sq_faces in Hf. destruct sq_corners as [C0 C1]. destruct Hf as [<-|[<-|[]]]; eauto. }
      destruct E as (a & b & c & E). pose proof (sq_flat f a b c Hf E) as N. unfold normal_orth in N. apply DirProofs.orth_ok in N as (N & _).
      unfold Remesh.get_triangle. cbn [topo_of Remesh.f_nodes]. rewrite E. cbn [three]. unfold area. cbn [ta tb tc] in *.
      rewrite iced_pos. lra. }
  destruct X as (n & H). rewrite H. f_equal. apply StepsProofs.nsteps_bounds in H. cbn in H. lia.
Qed.

Lemma sq_apart : apart (fun k => pt_of znear (vadd (vect_of zreal (n_p sq_heap k)) (vmul (V3 0 0 1) 1))) sq_heap.
Proof.
  assert (E : forall k, In k (g_nodes sq_heap) -> exists x y, n_p sq_heap k = (x, y, 0)%Z /\
     pt_of znear (vadd (vect_of zreal (n_p sq_heap k)) (vmul (V3 0 0 1) 1)) = (x, y, 1)%Z).
  { intros k Hk. assert (P : exists x y, n_p sq_heap k = (x, y, 0)%Z).
    { destruct sq_pos as (P0 & P1 & P2 & P3). rewrite sq_nodes in Hk. destruct Hk as [<-|[<-|[<-|[<-|[]]]]]; eauto. }
    destruct P as (x & y & P). exists x, y. split; [exact P|]. rewrite P. unfold pt_of, vect_of, vadd, vmul. cbn [vx vy vz].
    replace (zreal x + 0 * 1)%R with (zreal x) by ring. replace (zreal y + 0 * 1)%R with (zreal y) by ring.
    replace (zreal 0%Z + 1 * 1)%R with (zreal 1%Z) by (unfold zreal; cbn; ring). rewrite !znear_real. reflexivity. }
  intros a b Ha Hb Q. destruct (E a Ha) as (x & y & Pa & Ra), (E b Hb) as (x' & y' & Pb & Rb). rewrite Ra, Rb in Q. cbn in Q. injection Q as -> ->.
  rewrite <- Pb in Pa. clear - Ha Hb Pa. destruct sq_pos as (P0 & P1 & P2 & P3). rewrite sq_nodes in Ha, Hb.
  revert P0 P1 P2 P3 Pa Ha Hb. generalize (n_p sq_heap). clear. intros w P0 P1 P2 P3 Pa Ha Hb.
  destruct Ha as [<-|[<-|[<-|[<-|[]]]]], Hb as [<-|[<-|[<-|[<-|[]]]]]; try reflexivity; rewrite ?P0, ?P1, ?P2, ?P3 in Pa; discriminate.
Qed.

(** The height 1 of the faces after the C part. *)
Lemma sq_one : zreal (zplus (-1)%Z 2) = 1%R.
Proof. unfold zreal, zplus. cbn. reflexivity. Qed.

(** ** A strip of three faces *)

Definition strip_text : str := text_of
  (["TITLE=""strip"""; "VARIABLES=""X"", ""Y"", ""Z"", ""T"", ""Hi"", ""Hw"""]%string ++
   head6 "A" "5" "3" ++ ["0 1 0 1 0"; "0 0 1 1 2"; "0 0 0 0 0"; "7 8 9"; "1 2 3"; "4 5 6"; "1 2 3"; "2 4 3"; "3 4 5"]%string).
Definition strip_zone : @zone_rec ZOps := mkZone (lit "A") [lit "T"; lit "Hi"; lit "Hw"]
  [(0, 0, 0); (1, 0, 0); (0, 1, 0); (1, 1, 0); (0, 2, 0)]%Z [[7; 1; 4]; [8; 2; 5]; [9; 3; 6]]%Z [(0, 1, 2); (1, 3, 2); (2, 3, 4)].
Definition strip_evs : list (@event ZOps) := [ETitle (lit "strip"); EZone strip_zone].

From Verif Require Import GloIdsCases.
Lemma strip_form : @file_form ZOps [] (file_lines strip_text) strip_evs.
Proof.
  vm_compute file_lines.
  apply ff_title; [split; [discriminate|]; split; [reflexivity|]; eexists; split; reflexivity|].
  vars_tac. zone8 strip_zone. apply ff_end.
Qed.
Lemma strip_nd : @no_degenerate ZOps (zones_of strip_evs).
Proof.
  intros t Ht. vm_compute in Ht. destruct Ht as [<-|[<-|[<-|[]]]];
    repeat (constructor; [cbn; intuition discriminate|]); constructor.
Qed.
Lemma strip_some : @faces_in ZOps (zones_of strip_evs) <> 0.
Proof. vm_compute. discriminate. Qed.
Definition strip_heap : @heap ZOps := snd (load true strip_text (new_grid empty_heap)).
Lemma strip_run : load true strip_text (new_grid empty_heap) = (Ok tt, strip_heap).
Proof.
  assert (E : fst (load true strip_text (@new_grid ZOps empty_heap)) = Ok tt) by (vm_compute; reflexivity).
  exact (ok_pair (load true strip_text (new_grid empty_heap)) E).
Qed.
Lemma strip_faces : g_faces strip_heap = [0; 1; 2].
Proof. vm_compute. reflexivity. Qed.
Lemma strip_hi : var_value strip_heap 0 (lit "Hi") = 1%Z /\ var_value strip_heap 1 (lit "Hi") = 2%Z /\ var_value strip_heap 2 (lit "Hi") = 3%Z.
Proof. vm_compute. repeat split. Qed.
Lemma strip_have : all_have strip_heap work_vars.
Proof. apply all_have_list. vm_compute. reflexivity. Qed.
Lemma strip_chain : connected strip_heap (g_faces strip_heap).
Proof. apply chain3; vm_compute; reflexivity. Qed.
Opaque strip_heap.

Lemma strip_differ : forall f g, In f (g_faces strip_heap) -> In g (g_faces strip_heap) -> f <> g ->
  zplus (var_value strip_heap g (lit "Hi")) 2 <> zplus (var_value strip_heap f (lit "Hi")) 2.
Proof.
  intros f g Hf Hg. rewrite strip_faces in Hf, Hg. destruct strip_hi as (A & B & C). revert Hf Hg A B C. generalize (fun x => var_value strip_heap x (lit "Hi")).
  intros v Hf Hg A B C. destruct Hf as [<-|[<-|[<-|[]]]], Hg as [<-|[<-|[<-|[]]]]; intros N; try congruence; rewrite ?A, ?B, ?C; discriminate.
Qed.
