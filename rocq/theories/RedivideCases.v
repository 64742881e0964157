(** Concrete data for the examples beside the theorems about the decomposition of a grid file. *)

From Coq Require Import ZArith NArith Ascii String Bool Lia List Permutation.
From Verif Require Import Py Heap GridModel GridSpec DecompSpec SimpleDecomp GridIO FileSpec StoreSpec DriverSpec LoadProps Samples SamplesIO SamplesStore Redivide RedivideSpec RedivideProofs.
Import ListNotations.
Open Scope list_scope.
Open Scope nat_scope.

(** The zone B has one more variable. *)
Definition mixed : str := text_of
  (["TITLE=""mixed"""; "VARIABLES=""X"", ""Y"", ""Z"", ""T"", ""Hw"""]%string ++
   zone_head "A" "4" "2" ++
   ["0 1 0 -1"; "0 0 1 -1"; "0 0 0 0"; "7 8"; "70 80"; "1 2 3"; "1 3 4"]%string ++
   ["VARIABLES=""X"", ""Y"", ""Z"", ""T"", ""Hw"", ""Hi"""]%string ++
   ["ZONE T=""B"""; "NODES=3"; "ELEMENTS=1"; "DATAPACKING=BLOCK"; "ZONETYPE=FETRIANGLE"; "VARLOCATION=([4-6]=CELLCENTERED)"]%string ++
   ["1 0 1"; "0 1 1"; "0 0 0"; "9"; "90"; "900"; "1 2 3"]%string).

Definition zoneBH : @zone_rec ZOps := mkZone (lit "B") [lit "T"; lit "Hw"; lit "Hi"]
  [(1, 0, 0); (0, 1, 0); (1, 1, 0)]%Z [[9; 90; 900]]%Z [(0, 1, 2)].
Definition mixed_evs : list (@event ZOps) := [ETitle (lit "mixed"); EZone zoneA; EZone zoneBH].

Lemma mixed_form : @file_form ZOps [] (file_lines mixed) mixed_evs.
Proof.
  vm_compute file_lines.
  apply ff_title; [split; [discriminate|]; split; [reflexivity|]; eexists; split; reflexivity|].
  vars_tac. zone_tac zoneA. vars_tac. zone_tac zoneBH. apply ff_end.
Qed.

Lemma mixed_nd : @no_degenerate ZOps (zones_of mixed_evs).
Proof.
  intros t Ht. vm_compute in Ht. destruct Ht as [<-|[<-|[<-|[]]]];
    repeat (constructor; [cbn; intuition discriminate|]); constructor.
Qed.

Definition mixed_heap := snd (@load ZOps true mixed empty_heap).
Lemma mixed_run : @load ZOps true mixed empty_heap = (Ok tt, mixed_heap).
Proof.
  assert (E : fst (@load ZOps true mixed empty_heap) = Ok tt) by (vm_compute; reflexivity).
  exact (ok_pair (@load ZOps true mixed empty_heap) E).
Qed.
Opaque mixed_heap.

Lemma mixed_vars : forall zr, In zr (zones_of mixed_evs) -> NoDup (zr_vars zr).
Proof.
  intros zr [<-|[<-|[]]]; cbn [zr_vars zoneA zoneBH]; repeat (constructor; [cbn; intros K; repeat destruct K as [K|K]; try discriminate; auto|]); constructor.
Qed.

Lemma mixed_loses : exists out h2 evs', redivide (decompose_mono None) mixed empty_heap = (Ok out, h2) /\ @file_form ZOps [] (file_lines out) evs' /\
  faces_in (zones_of evs') = 3 /\ forall zr, In zr (zones_of evs') -> ~ In (lit "Hi") (zr_vars zr).
Proof.
  destruct (loaded_good _ _ _ _ mixed_run mixed_form mixed_nd) as (Hok & _).
  destruct (mono_ok None mixed_heap Hok) as (h2 & z & E & D & Ez & _ & Ef & _).
  destruct (redivided None (decompose_mono None) mixed empty_heap mixed_heap h2 mixed_evs Z_faithful mixed_run mixed_form mixed_nd)
    as (out & evs' & R & Ff & _ & _ & L & V & _); [discriminate|exact mixed_vars|constructor|exact E|discriminate|left; discriminate|].
  exists out, h2, evs'. split; [exact R|]. split; [exact Ff|]. split.
  - unfold faces_in. rewrite L, Ez. cbn [map list_sum fold_right]. rewrite Ef.
    assert (K : length (g_faces mixed_heap) = 3) by (vm_compute; reflexivity). rewrite K. reflexivity.
  - intros zr Hz K. rewrite (V zr Hz) in K. cbn in K. destruct K as [K|[K|[]]]; discriminate K.
Qed.
