(** Concrete files for the programs as wholes: a square with ice, the same with a point on no
    face, and two faces one above the other with an air file. *)

From Coq Require Import ZArith Reals Ascii String Bool Lia Lra List.
From Verif Require Import Py PyLemmas Heap GridModel GridSpec Mpi GridIO FileSpec StoreSpec Samples SamplesIO SamplesStore LoadProps Geom GeomProofs Programs ProgramsSpec
  ProgramsProofs ProgramsMore.
From Verif Require Remesh RemeshSpec DirProofs StepsProofs RemeshMore Drops.
Import ListNotations.
Open Scope list_scope.
Open Scope nat_scope.

(** Numbers of the examples are integers. *)
Definition zreal (v : @val ZOps) : R := IZR v.
Definition znear (r : R) : @val ZOps := Int_part r.

Lemma znear_real : forall v, znear (zreal v) = v.
Proof.
  intros v. unfold znear, zreal, Int_part. assert (E : up (IZR v) = (v + 1)%Z); [|lia].
  symmetry. apply tech_up; rewrite plus_IZR; lra.
Qed.

(** ** A square with ice *)

Definition ice_text : str := text_of
  (["TITLE=""ice"""; "VARIABLES=""X"", ""Y"", ""Z"", ""T"", ""Hi"""]%string ++
   zone_head "A" "4" "2" ++ ["0 1 1 0"; "0 0 1 1"; "0 0 0 0"; "7 8"; "1 1"; "1 2 3"; "1 3 4"]%string).
Definition ice_zone : @zone_rec ZOps := mkZone (lit "A") [lit "T"; lit "Hi"]
  [(0, 0, 0); (1, 0, 0); (1, 1, 0); (0, 1, 0)]%Z [[7; 1]; [8; 1]]%Z [(0, 1, 2); (0, 2, 3)].

Lemma ice_form : @file_form ZOps [] (file_lines ice_text) [ETitle (lit "ice"); EZone ice_zone].
Proof.
  vm_compute file_lines.
  apply ff_title; [split; [discriminate|]; split; [reflexivity|]; eexists; split; reflexivity|].
  vars_tac. zone_tac ice_zone. apply ff_end.
Qed.

Lemma ice_nd : @no_degenerate ZOps (zones_of [ETitle (lit "ice"); EZone ice_zone]).
Proof.
  intros t Ht. vm_compute in Ht. destruct Ht as [<-|[<-|[]]];
    repeat (constructor; [cbn; intuition discriminate|]); constructor.
Qed.

Definition ice_heap : @heap ZOps := snd (load true ice_text (new_grid empty_heap)).

Lemma ice_run : load true ice_text (new_grid empty_heap) = (Ok tt, ice_heap).
Proof.
  assert (E : fst (load true ice_text (@new_grid ZOps empty_heap)) = Ok tt) by (vm_compute; reflexivity).
  exact (ok_pair (load true ice_text (new_grid empty_heap)) E).
Qed.

Lemma ice_faces : g_faces ice_heap = [0; 1].
Proof. vm_compute. reflexivity. Qed.
Lemma ice_nodes : g_nodes ice_heap = [0; 1; 2; 3].
Proof. vm_compute. reflexivity. Qed.
Lemma ice_corners : f_nodes ice_heap 0 = [0; 1; 2] /\ f_nodes ice_heap 1 = [0; 2; 3].
Proof. vm_compute. auto. Qed.
Lemma ice_pos : n_p ice_heap 0 = (0, 0, 0)%Z /\ n_p ice_heap 1 = (1, 0, 0)%Z /\ n_p ice_heap 2 = (1, 1, 0)%Z /\ n_p ice_heap 3 = (0, 1, 0)%Z.
Proof. vm_compute. repeat split. Qed.
Lemma ice_hi : face_get ice_heap 0 (lit "Hi") = 1%Z /\ face_get ice_heap 1 (lit "Hi") = 1%Z.
Proof. vm_compute. split; reflexivity. Qed.
Opaque ice_heap.

Lemma ice_used : forall p, In p (all_pts (zones_of [ETitle (lit "ice"); EZone ice_zone])) -> used (zones_of [ETitle (lit "ice"); EZone ice_zone]) p.
Proof.
  intros p Hp. vm_compute in Hp. unfold used.
  assert (E : @file_faces ZOps (zones_of [ETitle (lit "ice"); EZone ice_zone]) = [[(0, 0, 0); (1, 0, 0); (1, 1, 0)]; [(0, 0, 0); (1, 1, 0); (0, 1, 0)]]%Z)
    by (vm_compute; reflexivity).
  rewrite E. destruct Hp as [<-|[<-|[<-|[<-|[]]]]].
  - eexists. split; [left; reflexivity|]. left. reflexivity.
  - eexists. split; [left; reflexivity|]. right. left. reflexivity.
  - eexists. split; [left; reflexivity|]. right. right. left. reflexivity.
  - eexists. split; [right; left; reflexivity|]. right. right. left. reflexivity.
Qed.

Lemma unit_normal : forall a b c r, cross (vsub b a) (vsub c b) = V3 0 0 1 -> normal_orth (Tri a b c r) = Ok (V3 0 0 1).
Proof.
  intros a b c r E. unfold normal_orth, orth, vdivr. cbn [ta tb tc]. rewrite E.
  replace (vmod (V3 0 0 1)) with 1%R by (unfold vmod, mod2, dot; cbn; replace (0*0+0*0+1*1)%R with 1%R by ring; symmetry; apply sqrt_1).
  rewrite (proj2 (Reqb_false 1 0)) by lra. f_equal. unfold vmul. apply vect_eq; cbn; field.
Qed.

Lemma ice_flat : forall f a b c, In f (g_faces ice_heap) -> f_nodes ice_heap f = [a; b; c] ->
  normal_orth (Tri (vect_of zreal (n_p ice_heap a)) (vect_of zreal (n_p ice_heap b)) (vect_of zreal (n_p ice_heap c)) f) = Ok (V3 0 0 1).
Proof.
  intros f a b c Hf E. destruct ice_pos as (P0 & P1 & P2 & P3). rewrite ice_faces in Hf. destruct ice_corners as [C0 C1].
  destruct Hf as [<-|[<-|[]]]; [rewrite C0 in E|rewrite C1 in E]; injection E as <- <- <-; rewrite ?P0, ?P1, ?P2, ?P3;
    apply unit_normal; unfold vect_of, zreal, cross, vsub; cbn; apply vect_eq; cbn; ring.
Qed.

Lemma ice_steps : Remesh.calculate_nsteps (RemeshMore.two_steps true) (topo_of ice_heap) (st_of zreal ice_heap) = Ok 2%Z.
Proof.
  assert (X : exists n, Remesh.calculate_nsteps (RemeshMore.two_steps true) (topo_of ice_heap) (st_of zreal ice_heap) = Ok n).
  { apply StepsProofs.nsteps_found; [cbn; lia| | |cbn; lra|cbn; lra].
    - cbn [topo_of Remesh.faces]. rewrite ice_faces. discriminate.
    - intros f Hf. cbn [topo_of Remesh.faces] in Hf. apply RemeshMore.side_pos.
      assert (E : exists a b c, f_nodes ice_heap f = [a; b; c]).
      { rewrite ice_faces in Hf. destruct ice_corners as [C0 C1]. destruct Hf as [<-|[<-|[]]]; eauto. }
      destruct E as (a & b & c & E). pose proof (ice_flat f a b c Hf E) as N. unfold normal_orth in N. apply DirProofs.orth_ok in N as (N & _).
      unfold Remesh.get_triangle. cbn [topo_of Remesh.f_nodes]. rewrite E. cbn [three]. unfold area. cbn [ta tb tc] in *.
      cbn [st_of Remesh.n_pos]. lra. }
  destruct X as (n & H). rewrite H. f_equal. apply StepsProofs.nsteps_bounds in H. cbn in H. lia.
Qed.

Lemma ice_apart : apart (fun k => pt_of znear (vadd (vect_of zreal (n_p ice_heap k)) (vmul (V3 0 0 1) 1))) ice_heap.
Proof.
  assert (E : forall k, In k (g_nodes ice_heap) -> exists x y, n_p ice_heap k = (x, y, 0)%Z /\
     pt_of znear (vadd (vect_of zreal (n_p ice_heap k)) (vmul (V3 0 0 1) 1)) = (x, y, 1)%Z).
  { intros k Hk. assert (P : exists x y, n_p ice_heap k = (x, y, 0)%Z).
    { destruct ice_pos as (P0 & P1 & P2 & P3). rewrite ice_nodes in Hk. destruct Hk as [<-|[<-|[<-|[<-|[]]]]]; eauto. }
    destruct P as (x & y & P). exists x, y. split; [exact P|]. rewrite P. unfold pt_of, vect_of, vadd, vmul. cbn [vx vy vz].
    replace (zreal x + 0 * 1)%R with (zreal x) by ring. replace (zreal y + 0 * 1)%R with (zreal y) by ring.
    replace (zreal 0%Z + 1 * 1)%R with (zreal 1%Z) by (unfold zreal; cbn; ring). rewrite !znear_real. reflexivity. }
  intros a b Ha Hb Q. destruct (E a Ha) as (x & y & Pa & Ra), (E b Hb) as (x' & y' & Pb & Rb). rewrite Ra, Rb in Q. cbn in Q. injection Q as -> ->.
  rewrite <- Pb in Pa. clear - Ha Hb Pa. destruct ice_pos as (P0 & P1 & P2 & P3). rewrite ice_nodes in Ha, Hb.
  revert P0 P1 P2 P3 Pa Ha Hb. generalize (n_p ice_heap). clear. intros w P0 P1 P2 P3 Pa Ha Hb.
  destruct Ha as [<-|[<-|[<-|[<-|[]]]]], Hb as [<-|[<-|[<-|[<-|[]]]]]; try reflexivity; rewrite ?P0, ?P1, ?P2, ?P3 in Pa; discriminate.
Qed.

(** ** A point on no face *)

Definition lone_text : str := text_of
  (["VARIABLES=""X"", ""Y"", ""Z"", ""T"", ""Hi"""]%string ++
   zone_head "A" "4" "1" ++ ["0 1 1 5"; "0 0 1 5"; "0 0 0 5"; "7"; "1"; "1 2 3"]%string).
Definition lone_zone : @zone_rec ZOps := mkZone (lit "A") [lit "T"; lit "Hi"]
  [(0, 0, 0); (1, 0, 0); (1, 1, 0); (5, 5, 5)]%Z [[7; 1]]%Z [(0, 1, 2)].

Lemma lone_form : @file_form ZOps [] (file_lines lone_text) [EZone lone_zone].
Proof. vm_compute file_lines. vars_tac. zone_tac lone_zone. apply ff_end. Qed.

Lemma lone_nd : @no_degenerate ZOps (zones_of [EZone lone_zone]).
Proof. intros t Ht. vm_compute in Ht. destruct Ht as [<-|[]]. repeat (constructor; [cbn; intuition discriminate|]); constructor. Qed.

Definition lone_heap : @heap ZOps := snd (load true lone_text (new_grid empty_heap)).
Lemma lone_run : load true lone_text (new_grid empty_heap) = (Ok tt, lone_heap).
Proof.
  assert (E : fst (load true lone_text (@new_grid ZOps empty_heap)) = Ok tt) by (vm_compute; reflexivity).
  exact (ok_pair (load true lone_text (new_grid empty_heap)) E).
Qed.

Lemma lone_unused : ~ used (zones_of [EZone lone_zone]) ((5, 5, 5)%Z : @pt ZOps).
Proof.
  intros (t & Ht & Hr). vm_compute in Ht. vm_compute in Hr. destruct Ht as [<-|[]]. destruct Hr as [H|[H|[H|[]]]]; discriminate.
Qed.
