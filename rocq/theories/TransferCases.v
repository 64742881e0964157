(** Concrete files for the programs that copy data to the nearest faces. *)

From Coq Require Import ZArith Reals Ascii String Bool Lia Lra List.
From Verif Require Import Py PyLemmas Heap GridModel GridSpec Mpi MpiSpec GridIO FileSpec StoreSpec Samples SamplesIO SamplesStore LoadProps Geom Drops DropsSpec DropsProofs Programs
  ProgramsSpec ProgramsProofs ProgramsCases Convert ConvertSpec ConvertCases Transfer TransferSpec TransferProofs.
Import ListNotations.
Open Scope list_scope.
Open Scope nat_scope.

(** The head of a zone with three variables. *)
Definition head3 (name : string) (n m : string) : list string :=
  [("ZONE T=""" ++ name ++ """")%string; ("NODES=" ++ n)%string; ("ELEMENTS=" ++ m)%string;
   "DATAPACKING=BLOCK"%string; "ZONETYPE=FETRIANGLE"%string; "VARLOCATION=([4-6]=CELLCENTERED)"%string].

(** A square with water, and one triangle at its side. *)
Definition wet_text : str := text_of
  (["TITLE=""wet"""; "VARIABLES=""X"", ""Y"", ""Z"", ""T"", ""Hw"", ""Beta"""]%string ++
   head3 "W" "4" "2" ++ ["0 1 1 0"; "0 0 1 1"; "0 0 0 0"; "7 8"; "3 4"; "5 6"; "1 2 3"; "1 3 4"]%string).
Definition one_text : str := text_of
  (["TITLE=""one"""; "VARIABLES=""X"", ""Y"", ""Z"", ""T"", ""Hw"", ""Hi"""]%string ++
   head3 "P" "3" "1" ++ ["0 2 0"; "0 2 2"; "0 0 0"; "1"; "9"; "2"; "1 2 3"]%string).
Definition one_zone : @zone_rec ZOps := mkZone (lit "P") [lit "T"; lit "Hw"; lit "Hi"]
  [(0, 0, 0); (2, 2, 0); (0, 2, 0)]%Z [[1; 9; 2]]%Z [(0, 1, 2)].

Lemma one_form : @file_form ZOps [] (file_lines one_text) [ETitle (lit "one"); EZone one_zone].
Proof.
  vm_compute file_lines.
  apply ff_title; [split; [discriminate|]; split; [reflexivity|]; eexists; split; reflexivity|].
  vars_tac. zone_tac one_zone. apply ff_end.
Qed.

Lemma one_nd : @no_degenerate ZOps (zones_of [ETitle (lit "one"); EZone one_zone]).
Proof.
  intros t Ht. vm_compute in Ht. destruct Ht as [<-|[]]; repeat (constructor; [cbn; intuition discriminate|]); constructor.
Qed.

Definition wet_heap : @heap ZOps := snd (load true wet_text (new_grid empty_heap)).
Definition one_heap : @heap ZOps := snd (load true one_text (new_grid empty_heap)).

Lemma wet_run : load true wet_text (new_grid empty_heap) = (Ok tt, wet_heap).
Proof.
  assert (E : fst (load true wet_text (@new_grid ZOps empty_heap)) = Ok tt) by (vm_compute; reflexivity).
  exact (ok_pair (load true wet_text (new_grid empty_heap)) E).
Qed.
Lemma one_run : load true one_text (new_grid empty_heap) = (Ok tt, one_heap).
Proof.
  assert (E : fst (load true one_text (@new_grid ZOps empty_heap)) = Ok tt) by (vm_compute; reflexivity).
  exact (ok_pair (load true one_text (new_grid empty_heap)) E).
Qed.

Lemma wet_faces : g_faces wet_heap = [0; 1]. Proof. vm_compute. reflexivity. Qed.
Lemma one_faces : g_faces one_heap = [0]. Proof. vm_compute. reflexivity. Qed.
Lemma one_zones : g_zones one_heap = [0] /\ z_faces one_heap 0 = [0]. Proof. vm_compute. auto. Qed.
Lemma one_vars : grid_vars one_heap = [lit "T"; lit "Hw"; lit "Hi"]. Proof. vm_compute. reflexivity. Qed.
Lemma wet_corners : map (n_p wet_heap) (f_nodes wet_heap 0) = [(0, 0, 0); (1, 0, 0); (1, 1, 0)]%Z /\
  map (n_p wet_heap) (f_nodes wet_heap 1) = [(0, 0, 0); (1, 1, 0); (0, 1, 0)]%Z.
Proof. vm_compute. auto. Qed.
Lemma one_corners : map (n_p one_heap) (f_nodes one_heap 0) = [(0, 0, 0); (2, 2, 0); (0, 2, 0)]%Z.
Proof. vm_compute. auto. Qed.
Lemma wet_values : var_value wet_heap 1 (lit "T") = 8%Z /\ var_value wet_heap 1 (lit "Hw") = 4%Z /\ var_value wet_heap 1 (lit "Beta") = 6%Z.
Proof. vm_compute. auto. Qed.
Lemma one_values : var_value one_heap 0 (lit "Hi") = 2%Z /\ var_value one_heap 0 (lit "Hw") = 9%Z.
Proof. vm_compute. auto. Qed.
Lemma ice_dry : var_value ice_heap 0 (lit "Hw") = 0%Z /\ var_value ice_heap 1 (lit "Hw") = 0%Z.
Proof. Transparent ice_heap. vm_compute. auto. Opaque ice_heap. Qed.
Lemma ice_no_hw : forall g, In g (g_faces ice_heap) -> dget str_dec (f_data ice_heap g) (lit "Hw") = None.
Proof. intros g Hg. rewrite ice_faces in Hg. Transparent ice_heap. destruct Hg as [<-|[<-|[]]]; vm_compute; reflexivity. Opaque ice_heap. Qed.
Lemma one_hw : dget str_dec (f_data one_heap 0) (lit "Hw") = Some 9%Z.
Proof. vm_compute. reflexivity. Qed.
Opaque wet_heap one_heap.

Lemma one_wet : exists z f, g_zones one_heap = [z] /\ z_faces one_heap z = [f] /\ dget str_dec (f_data one_heap f) (lit "Hw") <> Some (@val0 ZOps) /\
  In (lit "Hw") (grid_vars one_heap).
Proof.
  destruct one_zones as [Z1 Z2]. exists 0, 0. split; [exact Z1|]. split; [exact Z2|]. rewrite one_hw, one_vars. split; [discriminate|].
  right. left. reflexivity.
Qed.

(** The triangle is nearer to the second face of the square. *)
Lemma one_near : forall g, near_face zreal wet_heap one_heap 0 g -> g = 1.
Proof.
  intros g [Hg H]. rewrite wet_faces in *. destruct wet_corners as [C0 C1]. destruct Hg as [<-|[<-|[]]]; [|reflexivity]. exfalso.
  specialize (H 1 (or_intror (or_introl eq_refl))). unfold face_middle in H. rewrite C0, C1, one_corners in H. unfold zreal in H.
  unfold dist_to, vmod in H. apply sqrt_le_0 in H; try (unfold mod2, dot; nra).
  unfold mod2, dot, vsub in H. cbn in H. lra.
Qed.

(** Searching through all points. *)
Definition scan (pts : list vect) (p : vect) : nat := 
  match argmin (map (fun q => vmod (vsub q p)) pts) with Ok i => i | Raise _ => 0%nat end.

Lemma scan_ok : finds_nearest scan.
Proof.
  intros pts p Hp. unfold scan. destruct (argmin_ok (map (fun q => vmod (vsub q p)) pts)) as (i & b & -> & Hb & Hm); [destruct pts; cbn; congruence|].
  rewrite nth_error_map in Hb. destruct (nth_error pts i) as [e|] eqn:Ee; [|discriminate]. injection Hb as <-. exists e. split; [reflexivity|].
  split; [eapply nth_error_In; eauto|]. intros x Hx. apply In_nth_error in Hx as (k & Hk). apply (Hm k). rewrite nth_error_map, Hk. reflexivity.
Qed.

(** The whole run: T and Hw of the second face of the square, Hi as it was. *)
Lemma one_interpolated : exists out, interpolate_program zreal scan wet_text one_text empty_heap empty_heap = Ok out /\
  forall h0, exists h3 z f, load true out h0 = (Ok tt, h3) /\ g_zones h3 = [z] /\ z_faces h3 z = [f] /\
    f_data h3 f = [(lit "T", 8); (lit "Hw", 4); (lit "Hi", 2)]%Z.
Proof.
  destruct (interpolate_ok zreal scan wet_text one_text empty_heap empty_heap wet_heap one_heap scan_ok Z_faithful wet_run
    ltac:(rewrite wet_faces; discriminate) _ one_run one_form one_nd ltac:(rewrite one_faces; discriminate)) as (out & src & E & Hs & K).
  exists out. split; [exact E|]. intros h0. destruct (K h0) as (h3 & E3 & S). destruct S as (_ & S2 & _ & S4).
  destruct one_zones as [Oz Of]. rewrite Oz in S2, S4. destruct (g_zones h3) as [|z [|]] eqn:Ez; [discriminate S2| |discriminate S2].
  destruct (S4 0 0 z eq_refl eq_refl) as (_ & T2 & T3). rewrite Of in T2, T3. destruct (z_faces h3 z) as [|f [|]] eqn:Efz; [discriminate T2| |discriminate T2].
  destruct (T3 0 0 f eq_refl eq_refl) as (_ & U2 & U3). exists h3, z, f. split; [exact E3|]. split; [exact Ez|]. split; [exact Efz|].
  rewrite one_vars in U2, U3. change (with_var _ _) with [lit "T"; lit "Hw"; lit "Hi"] in U2, U3.
  specialize (Hs 0). rewrite one_faces in Hs. apply one_near in Hs; [|left; auto]. rewrite Hs in U3.
  destruct wet_values as (V1 & V2 & _). destruct one_values as (V3 & _).
  pose proof (U3 (lit "T") ltac:(cbn; auto)) as D1. pose proof (U3 (lit "Hw") ltac:(cbn; auto)) as D2. pose proof (U3 (lit "Hi") ltac:(cbn; auto)) as D3.
  unfold from_face in D1, D2, D3. destruct (in_dec str_dec (lit "T") _) as [_|N] in D1; [|exfalso; apply N; cbn; auto].
  destruct (in_dec str_dec (lit "Hw") _) as [_|N] in D2; [|exfalso; apply N; cbn; auto].
  destruct (in_dec str_dec (lit "Hi") _) as [[N|[N|[]]]|_] in D3; [discriminate N|discriminate N|].
  rewrite V1 in D1. rewrite V2 in D2. rewrite V3 in D3.
  destruct (f_data h3 f) as [|[k1 v1] [|[k2 v2] [|[k3 v3] [|]]]]; [discriminate U2|discriminate U2|discriminate U2| |discriminate U2]. cbn in U2. injection U2 as -> -> ->.
  clear - D1 D2 D3. vm_compute in D1, D2, D3. injection D1 as ->. injection D2 as ->. injection D3 as ->. reflexivity.
Qed.

(** The same with a source that has no Hw. *)
Lemma one_dried : exists out, interpolate_program zreal scan ice_text one_text empty_heap empty_heap = Ok out /\
  forall h0, exists h3 z f, load true out h0 = (Ok tt, h3) /\ g_zones h3 = [z] /\ z_faces h3 z = [f] /\ var_value h3 f (lit "Hw") = 0%Z.
Proof.
  destruct (interpolate_ok zreal scan ice_text one_text empty_heap empty_heap ice_heap one_heap scan_ok Z_faithful ice_run
    ltac:(rewrite ice_faces; discriminate) _ one_run one_form one_nd ltac:(rewrite one_faces; discriminate)) as (out & src & E & Hs & K).
  exists out. split; [exact E|]. intros h0. destruct (K h0) as (h3 & E3 & S). destruct S as (_ & S2 & _ & S4).
  destruct one_zones as [Oz Of]. rewrite Oz in S2, S4. destruct (g_zones h3) as [|z [|]] eqn:Ez; [discriminate S2| |discriminate S2].
  destruct (S4 0 0 z eq_refl eq_refl) as (_ & T2 & T3). rewrite Of in T2, T3. destruct (z_faces h3 z) as [|f [|]] eqn:Efz; [discriminate T2| |discriminate T2].
  destruct (T3 0 0 f eq_refl eq_refl) as (_ & U2 & U3). exists h3, z, f. split; [exact E3|]. split; [exact Ez|]. split; [exact Efz|].
  rewrite one_vars in U2, U3. change (with_var _ _) with [lit "T"; lit "Hw"; lit "Hi"] in U2, U3.
  pose proof (U3 (lit "Hw") ltac:(cbn; auto)) as D2. unfold var_value. rewrite D2. unfold from_face.
  destruct (in_dec str_dec (lit "Hw") _) as [_|N]; [|exfalso; apply N; cbn; auto].
  specialize (Hs 0). rewrite one_faces in Hs. destruct Hs as [Hs _]; [left; auto|]. rewrite ice_faces in Hs. destruct ice_dry as [D D'].
  destruct Hs as [<-|[<-|[]]]; auto.
Qed.
