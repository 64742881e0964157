(** A concrete run of drops.py on files: two faces one above the other, still air. *)

From Coq Require Import ZArith Reals Ascii String Bool Lia Lra List.
From Verif Require Import Py PyLemmas Heap GridModel GridSpec Mpi GridIO FileSpec StoreSpec LoadProps Samples SamplesIO SamplesStore Geom GeomSpec GeomProofs CloudProofs
  Drops DropsSpec DropsProofs DropsMore DropsCases DropsText DropsTextSpec DropsTextProofs DropsTextCases Programs ProgramsSpec ProgramsDrops ProgramsCases.
Import ListNotations.
Open Scope list_scope.
Open Scope nat_scope.

Definition stall_head (name n m : string) : list string :=
  [("ZONE T=""" ++ name ++ """")%string; ("NODES=" ++ n)%string; ("ELEMENTS=" ++ m)%string;
   "DATAPACKING=BLOCK"%string; "ZONETYPE=FETRIANGLE"%string; "VARLOCATION=([4-8]=CELLCENTERED)"%string].

(** The high face first. *)
Definition stall_text : str := text_of
  (["VARIABLES=""X"", ""Y"", ""Z"", ""Stall"", ""StallD"", ""StallVX"", ""StallVY"", ""StallVZ"""]%string ++
   stall_head "H" "3" "1" ++ ["0 0 3"; "0 3 0"; "2 2 2"; "1"; "1"; "0"; "0"; "-2"; "1 2 3"]%string ++
   stall_head "L" "3" "1" ++ ["0 3 0"; "0 0 3"; "0 0 0"; "1"; "1"; "0"; "0"; "-2"; "1 2 3"]%string).

Definition stall_vars : list str := [lit "Stall"; lit "StallD"; lit "StallVX"; lit "StallVY"; lit "StallVZ"].
Definition stall_H : @zone_rec ZOps := mkZone (lit "H") stall_vars
  [(0, 0, 2); (0, 3, 2); (3, 0, 2)]%Z [[1; 1; 0; 0; -2]]%Z [(0, 1, 2)].
Definition stall_L : @zone_rec ZOps := mkZone (lit "L") stall_vars
  [(0, 0, 0); (3, 0, 0); (0, 3, 0)]%Z [[1; 1; 0; 0; -2]]%Z [(0, 1, 2)].

Lemma stall_form : @file_form ZOps [] (file_lines stall_text) [EZone stall_H; EZone stall_L].
Proof. vm_compute file_lines. vars_tac. zone_tac stall_H. zone_tac stall_L. apply ff_end. Qed.

Lemma stall_nd : @no_degenerate ZOps (zones_of [EZone stall_H; EZone stall_L]).
Proof.
  intros t Ht. vm_compute in Ht. destruct Ht as [<-|[<-|[]]];
    repeat (constructor; [cbn; intuition discriminate|]); constructor.
Qed.

Definition stall_heap : @heap ZOps := snd (load true stall_text (new_grid empty_heap)).
Lemma stall_run : load true stall_text (new_grid empty_heap) = (Ok tt, stall_heap).
Proof.
  assert (E : fst (load true stall_text (@new_grid ZOps empty_heap)) = Ok tt) by (vm_compute; reflexivity).
  exact (ok_pair (load true stall_text (new_grid empty_heap)) E).
Qed.
Lemma stall_faces : g_faces stall_heap = [0; 1].
Proof. vm_compute. reflexivity. Qed.
Lemma stall_nodes : f_nodes stall_heap 0 = [0; 1; 2] /\ f_nodes stall_heap 1 = [3; 4; 5].
Proof. vm_compute. split; reflexivity. Qed.
Lemma stall_pos : n_p stall_heap 0 = (0, 0, 2)%Z /\ n_p stall_heap 1 = (0, 3, 2)%Z /\ n_p stall_heap 2 = (3, 0, 2)%Z /\
  n_p stall_heap 3 = (0, 0, 0)%Z /\ n_p stall_heap 4 = (3, 0, 0)%Z /\ n_p stall_heap 5 = (0, 3, 0)%Z.
Proof. vm_compute. repeat split. Qed.
Lemma stall_dicts : forall f, In f [0; 1] ->
  f_data stall_heap f = [(kStall, 1); (kStallD, 1); (kStallVX, 0); (kStallVY, 0); (kStallVZ, -2)]%Z.
Proof. intros f [<-|[<-|[]]]; vm_compute; reflexivity. Qed.
Lemma stall_names : grid_vars stall_heap = stall_vars.
Proof. vm_compute. reflexivity. Qed.
Opaque stall_heap.

Lemma stall_surface : surface_of zreal stall_heap = [high; low].
Proof.
  unfold surface_of. rewrite stall_faces. cbn [map]. unfold dface_of. destruct stall_nodes as [-> ->]. cbn [three].
  destruct stall_pos as (-> & -> & -> & -> & -> & ->). rewrite !stall_dicts by (cbn; auto). reflexivity.
Qed.

(** ** The run *)

Open Scope R_scope.

Lemma low_orth1 : normal_orth (get_triangle low 1) = Ok (V3 0 0 1).
Proof. exact low_orth. Qed.
Lemma low_area1 : area (get_triangle low 1) = 9 / 2.
Proof. exact low_area. Qed.

Lemma fall2 : exists c, triangles_cloud (get_triangles_list [high; low]) = Ok c /\
  first_intersection (Seg (V3 1 1 1) (V3 1 1 (-1))) c = Ok (Some (get_triangle low 1)).
Proof.
  set (sg := Seg (V3 1 1 1) (V3 1 1 (-1))).
  assert (Cw : forall t, In t (get_triangles_list [high; low]) -> eps10 <= Rabs (spanned t sg)).
  { intros t [<-|[<-|[]]]; unfold spanned, sg, get_triangle, low, high, dot, cross, vsub; cbn; unfold eps10.
    - match goal with |- _ <= Rabs ?x => replace x with 18 by ring end. rewrite Rabs_right by lra. lra.
    - match goal with |- _ <= Rabs ?x => replace x with (-18) by ring end. rewrite Rabs_left by lra. lra. }
  destruct (first_intersection_ok (get_triangles_list [high; low]) sg ltac:(discriminate) Cw) as (c & r & Ec & Er & Hr).
  exists c. split; auto. rewrite Er. f_equal. destruct r as [t|].
  - destruct Hr as [[<-|[<-|[]]] (x & (u & v & w & _ & _ & _ & S & _ & _ & Hz) & (k & K & _ & _ & Hk))]; auto.
    exfalso. cbn in Hz, Hk. nra.
  - exfalso. apply (Hr (get_triangle low 1) (V3 1 1 0)); [right; left; auto|]. split.
    + exists (1/3), (1/3), (1/3). cbn. repeat split; lra.
    + exists (1/2). cbn. repeat split; lra.
Qed.

Lemma down : forall c f i o, normal_orth (get_triangle f i) = Ok o -> (f = high /\ o = V3 0 0 (-1)) \/ (f = low /\ o = V3 0 0 1) ->
  first_intersection (Seg (V3 1 1 1) (V3 1 1 (-1))) c = Ok (Some (get_triangle low 1)) ->
  flight (Space still_air air_box) c 1 1 1 f i = Ok (VC, Some 1%nat, [V3 1 1 1; V3 1 1 (-1)]).
Proof.
  intros c f i o N H E. unfold flight. rewrite N. cbn [rbind].
  assert (P : vadd (centroid (get_triangle f i)) (vmul o 1) = V3 1 1 1).
  { destruct H as [[-> ->]|[-> ->]]; unfold centroid, get_triangle, low, high; cbn; apply vect_eq; cbn; field. }
  rewrite P.
  assert (G : V3 (getitem f kStallVX) (getitem f kStallVY) (getitem f kStallVZ) = V3 0 0 (-2) /\ getitem f kStallD = 1).
  { destruct H as [[-> ->]|[-> ->]]; split; reflexivity. }
  destruct G as [-> ->].
  destruct (fly_first (Space still_air air_box) still_air air_box c (V3 1 1 1) (V3 0 0 (-2)) (V3 0 0 0) 1 1 1) as [v' F]; auto.
  - discriminate.
  - lra.
  - lia.
  - apply in_air; lra.
  - intros e [<-|[<-|[]]]; auto.
  - intros Q. inversion Q. lra.
  - unfold vmod, mod2, dot, vmul; cbn. replace (0*1*(0*1)+0*1*(0*1)+-2*1*(-2*1)) with (2*2) by ring. rewrite sqrt_square by lra. lra.
  - rewrite F. replace (vadd (V3 1 1 1) (vmul (V3 0 0 (-2)) 1)) with (V3 1 1 (-1)) by (apply vect_eq; cbn; ring).
    rewrite E. reflexivity.
Qed.

(** Both droplets land on the second face, none on the first. *)
Lemma both_low : exists c, triangles_cloud (get_triangles_list [high; low]) = Ok c /\
  (forall i, (i < 2)%nat -> lands (Space still_air air_box) c 1 1 0 1 [high; low] i 1) /\
  (forall i, ~ lands (Space still_air air_box) c 1 1 0 1 [high; low] i 0) /\
  exists gs trs, drops [high; low] still_air 1 1 0 1 = Ok (gs, trs).
Proof.
  destruct fall2 as (c & Ec & E). exists c. split; auto.
  assert (F0 : flight (Space still_air air_box) c 1 1 1 high 0 = Ok (VC, Some 1%nat, [V3 1 1 1; V3 1 1 (-1)])).
  { apply (down c high 0 (V3 0 0 (-1))); auto using high_orth. }
  assert (F1 : flight (Space still_air air_box) c 1 1 1 low 1 = Ok (VC, Some 1%nat, [V3 1 1 1; V3 1 1 (-1)])).
  { apply (down c low 1 (V3 0 0 1)); auto using low_orth1. }
  split; [|split].
  - intros i Hi. destruct i as [|[|i]]; [| |lia].
    + exists high, [V3 1 1 1; V3 1 1 (-1)]. split; [reflexivity|]. split; [change (0 < 1); lra|exact F0].
    + exists low, [V3 1 1 1; V3 1 1 (-1)]. split; [reflexivity|]. split; [change (0 < 1); lra|exact F1].
  - intros i (f & tr & Hf & _ & L). destruct i as [|[|i]]; cbn in Hf.
    + injection Hf as <-. rewrite F0 in L. discriminate.
    + injection Hf as <-. rewrite F1 in L. discriminate.
    + destruct i; discriminate.
  - unfold drops. rewrite Ec. cbn [rbind]. rewrite still_space. cbn [rbind].
    change (seq 0 (List.length [high; low])) with [0%nat; 1%nat]. cbn [drops_loop]. unfold drops_face at 1.
    change (nth_error [high; low] 0) with (Some high). cbv beta iota zeta. change (getitem high kStall) with 1.
    rewrite (proj2 (Rltb_true 0 1)) by lra. rewrite F0. cbn [rbind fst snd].
    change (nth_error [high; low] 1) with (Some low). cbv beta iota zeta. rewrite low_area1. unfold py_div at 1. rewrite (proj2 (Reqb_false (9/2) 0)) by lra. cbn [rbind].
    set (low1 := setitem low kMImp2 (1 / (9 / 2))). change (list_set [high; low] 1 low1) with [high; low1].
    unfold drops_face. change (nth_error [high; low1] 1) with (Some low1). cbv beta iota zeta.
    change (getitem low1 kStall) with 1. rewrite (proj2 (Rltb_true 0 1)) by lra.
    change (flight (Space still_air air_box) c 1 1 1 low1 1) with (flight (Space still_air air_box) c 1 1 1 low 1). rewrite F1. cbn [rbind fst snd].
    change (nth_error [high; low1] 1) with (Some low1). cbv iota beta.
    change (get_triangle low1 1) with (get_triangle low 1).
    rewrite low_area1. unfold py_div at 1. rewrite (proj2 (Reqb_false (9/2) 0)) by lra. cbn [rbind fst snd app].
    do 2 eexists. reflexivity.
Qed.

(** ** The air file *)

Definition z_fl (s : str) : res R := match @prs ZOps s with Some z => Ok (IZR z) | None => Raise EValueError end.
Definition calm_lines : list str := [brick_line "2" "0"; aln "0 0 0 0 0 0 0 0"; aln "2 2 2 0 0 0 0 0"].

Lemma calm_form : air_form z_fl calm_lines still_air.
Proof.
  unfold calm_lines. apply (air_brick z_fl _ [aln "0 0 0 0 0 0 0 0"; aln "2 2 2 0 0 0 0 0"] [] _ still_air []); [apply brick_ok| |apply air_end].
  constructor; [|constructor; [|constructor]]; repeat split; eexists; (split; [reflexivity|reflexivity]).
Qed.

(** The variables of every face of a zone. *)
Lemma surface_keys : forall (F : FloatOps) pos vars value h h', same_surface pos vars value h h' ->
  forall z f, In z (g_zones h') -> In f (z_faces h' z) -> keys (f_data h' f) = vars.
Proof.
  intros F pos vars value h h' (_ & L & _ & S) z f Hz Hf.
  apply In_nth_error in Hz as [i Hi]. apply In_nth_error in Hf as [k Hk].
  destruct (nth_error (g_zones h) i) as [z0|] eqn:E0.
  2:{ apply nth_error_None in E0. assert (i < length (g_zones h'))%nat by (apply nth_error_Some; congruence). lia. }
  destruct (S i z0 z E0 Hi) as (_ & L2 & K).
  destruct (nth_error (z_faces h z0) k) as [f0|] eqn:E1.
  2:{ apply nth_error_None in E1. assert (k < length (z_faces h' z))%nat by (apply nth_error_Some; congruence). lia. }
  apply (K k f0 f E1 Hk).
Qed.
