(** Concrete ANSYS files for the examples and the refutations. *)

From Coq Require Import ZArith Reals Bool List Lia String Ascii.
From Verif Require Import Py PyLemmas TextLemmas Geom Convert ConvertSpec Ansys AnsysSpec AnsysText AnsysProofs AnsysMore.
Import ListNotations.
Open Scope list_scope.
Open Scope nat_scope.

(** A line; an apostrophe stands for the quotation mark. *)
Definition ln (s : string) : str := map (fun c => if Ascii.eqb c "'"%char then dquote else c) (lit s) ++ [nl].
(** A text with quotation marks. *)
Definition tx (s : string) : str := map (fun c => if Ascii.eqb c "'"%char then dquote else c) (lit s).

Definition wing_head : str := ln "ZONE T='wing', N=3, E=1, F=FEPOINT".
Definition tail_head : str := ln "ZONE T='tail', N=2, E=0, F=FEPOINT".
Definition wing : block := Block (lit "wing") wing_head [ln "0 0 0 271"; ln "1 0 0 272"; ln "0 1 0 273"] [ln "1 2 3 3"].
Definition tail : block := Block (lit "tail") tail_head [ln "5 0 0 300"; ln "6 0 0 301"] [].
Definition title : str := ln "TITLE = 'flow'".
Definition vars_spaced : str := ln "VARIABLES='X', 'Y', 'Z', 'Static temperature'".
Definition vars_tight : str := ln "VARIABLES='X','Y','Z','Static temperature'".

Ltac no_occ := apply contains_not; vm_compute; reflexivity.
Ltac occ := apply contains_occurs; vm_compute; reflexivity.

Lemma plain_dec : forall l, contains (lit "TITLE") l || contains (lit "VARIABLES") l || contains (lit "ZONE") l = false -> plain l.
Proof. intros l H. apply orb_false_iff in H as [H H3]. apply orb_false_iff in H as [H1 H2]. repeat split; apply contains_not; auto. Qed.

Lemma wing_name : names_zone wing_head (lit "wing").
Proof.
  exists (lit "ZONE "), (ln ", N=3, E=1, F=FEPOINT"). split; [vm_compute; reflexivity|].
  split; [no_occ|]. split; [no_occ|]. split; [|no_occ]. cbn. intros H. repeat destruct H as [H|H]; try discriminate; contradiction.
Qed.
Lemma tail_name : names_zone tail_head (lit "tail").
Proof.
  exists (lit "ZONE "), (ln ", N=2, E=0, F=FEPOINT"). split; [vm_compute; reflexivity|].
  split; [no_occ|]. split; [no_occ|]. split; [|no_occ]. cbn. intros H. repeat destruct H as [H|H]; try discriminate; contradiction.
Qed.
Lemma wing_counts : declares wing_head 3 1.
Proof.
  exists (tx "ZONE T='wing', "), (lit ", E="), (ln ", F=FEPOINT"). split; [vm_compute; reflexivity|].
  split; [no_occ|]. split; [no_occ|]. split; [discriminate|]. split; [repeat constructor|reflexivity].
Qed.
Lemma tail_counts : declares tail_head 2 0.
Proof.
  exists (tx "ZONE T='tail', "), (lit ", E="), (ln ", F=FEPOINT"). split; [vm_compute; reflexivity|].
  split; [no_occ|]. split; [no_occ|]. split; [discriminate|]. split; [repeat constructor|reflexivity].
Qed.

Ltac plains := repeat (apply Forall_cons; [apply plain_dec; vm_compute; reflexivity|]); apply Forall_nil.

Lemma wing_good : forall ns es, List.length ns = 3 -> List.length es = 1 -> Forall plain ns -> Forall plain es -> good_block (Block (lit "wing") wing_head ns es).
Proof.
  intros ns es Hn He Pn Pe. split; [occ|]. split; [no_occ|]. split; [no_occ|]. split; [exact wing_name|]. cbn [b_head b_nodes b_elems]. rewrite Hn, He. split; [exact wing_counts|]. auto.
Qed.
Lemma tail_good : forall ns es, List.length ns = 2 -> List.length es = 0 -> Forall plain ns -> Forall plain es -> good_block (Block (lit "tail") tail_head ns es).
Proof.
  intros ns es Hn He Pn Pe. split; [occ|]. split; [no_occ|]. split; [no_occ|]. split; [exact tail_name|]. cbn [b_head b_nodes b_elems]. rewrite Hn, He. split; [exact tail_counts|]. auto.
Qed.

Lemma wing_ok : good_block wing.
Proof. apply wing_good; auto; plains. Qed.
Lemma tail_ok : good_block tail.
Proof. apply tail_good; auto; plains. Qed.

Definition flow_file : list piece := [Head title; Head vars_tight; Data wing; Data tail].

Lemma flow_good : Forall good_piece flow_file.
Proof.
  constructor; [left; occ|]. constructor; [right; occ|]. constructor; [exact wing_ok|]. constructor; [exact tail_ok|]. constructor.
Qed.

Lemma vars_tight_ok : variables_line vars_tight [tx "'X'"; tx "'Y'"; tx "'Z'"; ln "'Static temperature'"].
Proof.
  split; [occ|]. split; [no_occ|]. exists (lit "VARIABLES"), []. split; [vm_compute; reflexivity|]. split; [discriminate|].
  split. { cbn. intros H. repeat destruct H as [H|H]; try discriminate; contradiction. }
  split; [|exact I].
  repeat (apply Forall_cons; [split; cbn; intros H; repeat destruct H as [H|H]; try discriminate; contradiction|]). apply Forall_nil.
Qed.

(* ---------------------------------------------------------------- *)
(** Names with blanks after commas, as filter_variables itself writes them. *)

Definition xyz : list str := [lit "X"; lit "Y"; lit "Z"; lit "Static temperature"].
Definition spaced_file : list str := title :: vars_spaced :: block_lines wing.

Lemma spaced_loses :
  filter_variables xyz None 0 0 spaced_file =
  Ok (title :: ln "VARIABLES='X', 'Static temperature'" :: wing_head :: [ln "0 271"; ln "1 272"; ln "0 273"; ln "1 2 3 3"]).
Proof. vm_compute. reflexivity. Qed.

(** What filter_variables writes for the file without blanks is the file with blanks. *)
Lemma tight_keeps : filter_variables xyz None 0 0 (title :: vars_tight :: block_lines wing) = Ok spaced_file.
Proof. vm_compute. reflexivity. Qed.

(** A longer name is taken for the requested one. *)
Lemma similar_kept :
  filter_variables xyz None 0 0 [ln "VARIABLES='X','Y','Z','Static temperature','Gradient of Static temperature'"; wing_head; ln "0 0 0 271 7"; ln "1 0 0 272 8"; ln "0 1 0 273 9"; ln "1 2 3 3"] =
  Ok [ln "VARIABLES='X', 'Y', 'Z', 'Static temperature', 'Static temperature'"; wing_head; ln "0 0 0 271 7"; ln "1 0 0 272 8"; ln "0 1 0 273 9"; ln "1 2 3 3"].
Proof. vm_compute. reflexivity. Qed.

(* ---------------------------------------------------------------- *)
(** Three files to merge. *)

Definition fensap_wing : block := Block (lit "wing") wing_head [ln "0 0 0 271 .1 .2 .3 50"; ln "1 0 0 272 .4 .5 .6 60"; ln "0 1 0 273 .7 .8 .9 70"] [ln "1 2 3 3"].
Definition drop_wing : block := Block (lit "wing") wing_head [ln "0 0 0 .01"; ln "1 0 0 .02"; ln "0 1 0 .03"] [ln "1 2 3 3"].
(** The same zone with its nodes in another order. *)
Definition drop_wing_other : block := Block (lit "wing") wing_head [ln "1 0 0 .02"; ln "0 0 0 .01"; ln "0 1 0 .03"] [ln "2 1 3 3"].
Definition adia_wing : block := Block (lit "wing") wing_head [ln "0 0 0 281"; ln "1 0 0 282"; ln "0 1 0 283"] [ln "1 2 3 3"].

Lemma fensap_good : good_block fensap_wing.
Proof. apply wing_good; auto; plains. Qed.

Lemma merged_example :
  merge_files 0 0 (title :: vars_spaced :: block_lines fensap_wing) (title :: vars_spaced :: block_lines drop_wing) (title :: vars_spaced :: block_lines adia_wing) =
  Ok (title :: header_of merged_names :: wing_head :: [ln "0 0 0 50 .01 .1 .2 .3 271 281"; ln "1 0 0 60 .02 .4 .5 .6 272 282"; ln "0 1 0 70 .03 .7 .8 .9 273 283"; ln "1 2 3 3"]).
Proof. vm_compute. reflexivity. Qed.

Lemma merged_wrong :
  merge_files 0 0 (title :: vars_spaced :: block_lines fensap_wing) (title :: vars_spaced :: block_lines drop_wing_other) (title :: vars_spaced :: block_lines adia_wing) =
  Ok (title :: header_of merged_names :: wing_head :: [ln "0 0 0 50 .02 .1 .2 .3 271 281"; ln "1 0 0 60 .01 .4 .5 .6 272 282"; ln "0 1 0 70 .03 .7 .8 .9 273 283"; ln "1 2 3 3"]).
Proof. vm_compute. reflexivity. Qed.

(** A file in which the heat flux comes before the temperature. *)
Definition fensap_names : list str := map lit ["X"; "Y"; "Z"; "Static temperature"; "SF1"; "SF2"; "SF3"; "Classical heat flux"]%string.
Definition swapped_vars : str := ln "VARIABLES='X','Y','Z','Classical heat flux','SF1','SF2','SF3','Static temperature'".
Definition swapped_rows : list str := [swapped_vars; tail_head; ln "5 0 0 50 .1 .2 .3 271"; ln "6 0 0 60 .4 .5 .6 272"].
Definition swapped_out : list str :=
  [ln "VARIABLES='X', 'Y', 'Z', 'Classical heat flux', 'SF1', 'SF2', 'SF3', 'Static temperature'"; tail_head; ln "5 0 0 50 .1 .2 .3 271"; ln "6 0 0 60 .4 .5 .6 272"].

Lemma swapped_filtered : filter_variables fensap_names None 0 0 swapped_rows = Ok swapped_out.
Proof. vm_compute. reflexivity. Qed.

Lemma swapped_merged : 
  merge_files 0 0 swapped_out [vars_spaced; tail_head; ln "5 0 0 .01"; ln "6 0 0 .02"] [vars_spaced; tail_head; ln "5 0 0 281"; ln "6 0 0 282"] =
  Ok [header_of merged_names; tail_head; ln "5 0 0 271 .01 .1 .2 .3 50 281"; ln "6 0 0 272 .02 .4 .5 .6 60 282"].
Proof. vm_compute. reflexivity. Qed.
