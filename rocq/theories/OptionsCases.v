(** Concrete json files. *)

From Coq Require Import ZArith Reals Ascii String Bool Lia List.
From Verif Require Import Py PyLemmas Heap HeapLemmas GridModel GridSpec GridIO FileSpec LoadProps Samples SamplesIO SamplesStore Driver DriverSpec
  Geom Remesh Options OptionsSpec OptionsProofs.
Import ListNotations.
Open Scope list_scope.
Open Scope nat_scope.

(** A json file that heats zone A. *)
Definition heat (els : list (json Z)) : json Z :=
  JObj [(lit "recovery_factor", JInt 1); (lit "heating_system", JObj [(lit "elements", JList els)]); (lit "split_strategy", JStr (lit "n2"))].
Definition element (nm : string) : json Z := JObj [(lit "zone", JStr (lit nm)); (lit "start_time", JInt 0)].

Lemma heat_member : forall els, exists hs, member (heat els) "heating_system" hs /\ member hs "elements" (JList els).
Proof. intros els. eexists. split; eexists; split; reflexivity. Qed.

Lemma heat_chosen : forall els, chosen None (heat els) (lit "n2").
Proof. intros els. right. split; [reflexivity|]. left. eexists. split; reflexivity. Qed.

Lemma heat_factor : forall els, factor 1%Z (fun z => z) (heat els) 1%Z.
Proof. intros els. right. left. exists 1%Z. split; [eexists; split; reflexivity|reflexivity]. Qed.

Lemma element_zone : forall nm, member (element nm) "zone" (JStr (lit nm)).
Proof. intros nm. eexists. split; reflexivity. Qed.

Lemma plate_names : map (z_name plate) (g_zones plate) = [lit "A"; lit "B"].
Proof. vm_compute. reflexivity. Qed.


Definition is_ok {A} (r : res A) : bool := match r with Ok _ => true | Raise _ => false end.

Lemma ok_run : forall {F : FloatOps} A (p : res A * heap), is_ok (fst p) = true -> exists a, p = (Ok a, snd p).
Proof. intros F A [[a|e] h] H; [exists a; reflexivity|discriminate]. Qed.

Lemma two_domains : exists out h', @split ZOps (Some two_zones) (lit ".dat") (lit "n2") [] 1%Z ToDat empty_heap = (Ok out, h') /\
  map (z_name h') (g_zones h') = [lit "farhat 0"; lit "farhat 1"].
Proof.
  set (p := @split ZOps (Some two_zones) (lit ".dat") (lit "n2") [] 1%Z ToDat empty_heap).
  assert (E : is_ok (fst p) = true) by (vm_compute; reflexivity).
  assert (N : map (z_name (snd p)) (g_zones (snd p)) = [lit "farhat 0"; lit "farhat 1"]) by (vm_compute; reflexivity).
  destruct (ok_run _ p E) as (a & Ep). exists a, (snd p). split; [exact Ep|exact N].
Qed.

Lemma fewer_domains : exists out h', @split ZOps (Some two_zones) (lit ".dat") (lit "n3") [lit "A"; lit "A"] 1%Z ToDat empty_heap = (Ok out, h') /\
  length (g_zones h') = 2.
Proof.
  set (p := @split ZOps (Some two_zones) (lit ".dat") (lit "n3") [lit "A"; lit "A"] 1%Z ToDat empty_heap).
  assert (E : is_ok (fst p) = true) by (vm_compute; reflexivity).
  assert (N : length (g_zones (snd p)) = 2) by (vm_compute; reflexivity).
  destruct (ok_run _ p E) as (a & Ep). exists a, (snd p). split; [exact Ep|exact N].
Qed.
