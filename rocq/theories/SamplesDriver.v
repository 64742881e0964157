(** Concrete files for the examples beside the theorems about merge and split. *)

From Coq Require Import ZArith NArith Ascii String Bool Lia List Permutation.
From Verif Require Import Py PyLemmas Heap HeapLemmas GridModel GridSpec GridIO FileSpec StoreSpec
  LoadProps Samples SamplesIO SamplesStore Driver DriverSpec DriverProofs.
Import ListNotations.
Open Scope list_scope.
Open Scope nat_scope.

(** Two txt files of one timestamp for the faces of [two_zones]. *)
Definition txt1 : str := text_of
  ["VARIABLES=""FaceId"", ""T"", ""Hi"""; "2 30 31"; "0 10 11"]%string.
Definition txt2 : str := text_of ["VARIABLES=""FaceId"", ""T"", ""Hi"""; "1 20 21"]%string.
(** A file with another header. *)
Definition txt3 : str := text_of ["VARIABLES=""FaceId"", ""Q"""; "1 5"]%string.
(** A negative number. *)
Definition txt_neg : str := text_of ["VARIABLES=""FaceId"", ""T"""; "-1 5"]%string.

(** A file with points of different heights. *)
Definition tilted : str := text_of
  (["TITLE=""hill"""; "VARIABLES=""X"", ""Y"", ""Z"", ""T"", ""Hw"""]%string ++
   zone_head "A" "4" "2" ++
   ["0 10 0 -10"; "0 0 10 -10"; "0 3 60 90"; "7 8"; "70 80"; "1 2 3"; "1 3 4"]%string ++
   zone_head "B" "3" "1" ++
   ["10 0 10"; "0 10 10"; "3 60 200"; "9"; "90"; "1 2 3"]%string).

Definition zoneA3 : @zone_rec ZOps := mkZone (lit "A") [lit "T"; lit "Hw"]
  [(0, 0, 0); (10, 0, 3); (0, 10, 60); (-10, -10, 90)]%Z [[7; 70]; [8; 80]]%Z [(0, 1, 2); (0, 2, 3)].
Definition zoneB3 : @zone_rec ZOps := mkZone (lit "B") [lit "T"; lit "Hw"]
  [(10, 0, 3); (0, 10, 60); (10, 10, 200)]%Z [[9; 90]]%Z [(0, 1, 2)].

Lemma tilted_form : @file_form ZOps [] (file_lines tilted) [ETitle (lit "hill"); EZone zoneA3; EZone zoneB3].
Proof.
  vm_compute file_lines.
  apply ff_title; [split; [discriminate|]; split; [reflexivity|]; eexists; split; reflexivity|].
  vars_tac. zone_tac zoneA3. zone_tac zoneB3. apply ff_end.
Qed.

Lemma tilted_nd : @no_degenerate ZOps [zoneA3; zoneB3].
Proof.
  intros t Ht. vm_compute in Ht. destruct Ht as [<-|[<-|[<-|[]]]];
    repeat (constructor; [cbn; intuition discriminate|]); constructor.
Qed.

Ltac row := match goal with |- calc_row ?l ?r =>
  let s := eval vm_compute in (split_ws l) in
  match s with ?a :: ?b => exists a, b; split; [reflexivity|]; split; [reflexivity|];
    repeat (eapply Forall2_cons; [reflexivity|]); apply Forall2_nil end end.
Ltac calc := do 2 eexists; split; [reflexivity|]; split; [eexists; split; reflexivity|];
  vm_compute file_lines; repeat (eapply Forall2_cons; [row|]); apply Forall2_nil.

Lemma txt1_file : @calc_file ZOps txt1 [lit "T"; lit "Hi"] [(2, [30; 31]); (0, [10; 11])]%Z.
Proof. calc. Qed.
Lemma txt2_file : @calc_file ZOps txt2 [lit "T"; lit "Hi"] [(1, [20; 21])]%Z.
Proof. calc. Qed.
Lemma txt3_file : @calc_file ZOps txt3 [lit "Q"] [(1, [5])]%Z.
Proof. calc. Qed.
Lemma txt_neg_file : @calc_file ZOps txt_neg [lit "T"] [(-1, [5])]%Z.
Proof. calc. Qed.

Lemma txt12_covering : @covering ZOps [zoneA; zoneB] [txt1; txt2] [lit "T"; lit "Hi"] [[10; 11]; [20; 21]; [30; 31]]%Z.
Proof.
  split; [repeat constructor; cbn; intuition discriminate|]. split; [reflexivity|]. split.
  { intros row [<-|[<-|[<-|[]]]]; reflexivity. }
  exists [[(2, [30; 31]); (0, [10; 11])]; [(1, [20; 21])]]%Z. split.
  - constructor; [exact txt1_file|]. constructor; [exact txt2_file|constructor].
  - cbn. change (Permutation [(2, [30; 31]); (0, [10; 11]); (1, [20; 21])]%Z [(0, [10; 11]); (1, [20; 21]); (2, [30; 31])]%Z).
    apply (Permutation_trans (l' := [(0, [10; 11]); (2, [30; 31]); (1, [20; 21])]%Z)); [apply perm_swap|].
    constructor. apply perm_swap.
Qed.
