(** Concrete files used by the examples beside the theorems about load and store. *)

From Coq Require Import ZArith NArith Ascii String Bool Lia List.
From Verif Require Import Py Heap GridModel GridSpec GridIO FileSpec Samples.
Import ListNotations.
Open Scope list_scope.
Open Scope nat_scope.

(** Text of a file from its lines. *)
Definition text_of (ls : list string) : str := concat (map (fun l => lit l ++ [nl]) ls).

Definition zone_head (name : string) (n m : string) : list string :=
  [("ZONE T=""" ++ name ++ """")%string; ("NODES=" ++ n)%string; ("ELEMENTS=" ++ m)%string;
   "DATAPACKING=BLOCK"%string; "ZONETYPE=FETRIANGLE"%string; "VARLOCATION=([4-5]=CELLCENTERED)"%string].

(** Two zones, A with two faces and B with one; they share the edge (1,0,0)-(0,1,0). *)
Definition two_zones : str := text_of
  (["# crys-gsu"; "TITLE=""plate"""; "VARIABLES=""X"", ""Y"", ""Z"", ""T"", ""Hw"""]%string ++
   zone_head "A" "4" "2" ++
   ["0 1 0 -1"; "0 0 1 -1"; "0 0 0 0"; "7 8"; "70 80"; "1 2 3"; "1 3 4"]%string ++
   zone_head "B" "3" "1" ++
   ["1 0 1"; "0 1 1"; "0 0 0"; "9"; "90"; "1 2 3"]%string).

(** The same without a title. *)
Definition no_title : str := text_of
  (["VARIABLES=""X"", ""Y"", ""Z"", ""T"", ""Hw"""]%string ++
   zone_head "A" "3" "1" ++ ["0 1 0"; "0 0 1"; "0 0 0"; "7"; "70"; "1 2 3"]%string).

(** Three faces on the edge (0,0,0)-(1,0,0), in different zones. *)
Definition three_on_edge : str := text_of
  (["VARIABLES=""X"", ""Y"", ""Z"", ""T"", ""Hw"""]%string ++
   zone_head "A" "4" "2" ++ ["0 1 0 0"; "0 0 1 -1"; "0 0 0 0"; "7 8"; "70 80"; "1 2 3"; "2 1 4"]%string ++
   zone_head "B" "3" "1" ++ ["1 0 0"; "0 0 0"; "0 0 5"; "9"; "90"; "1 2 3"]%string).

(** A connectivity entry 0: Python takes the last node. *)
Definition zero_entry : str := text_of
  (["VARIABLES=""X"", ""Y"", ""Z"", ""T"", ""Hw"""]%string ++
   zone_head "A" "3" "1" ++ ["0 1 0"; "0 0 1"; "0 0 0"; "7"; "70"; "1 2 0"]%string).

Definition zoneA : @zone_rec ZOps := mkZone (lit "A") [lit "T"; lit "Hw"]
  [(0, 0, 0); (1, 0, 0); (0, 1, 0); (-1, -1, 0)]%Z [[7; 70]; [8; 80]]%Z [(0, 1, 2); (0, 2, 3)].
Definition zoneB : @zone_rec ZOps := mkZone (lit "B") [lit "T"; lit "Hw"]
  [(1, 0, 0); (0, 1, 0); (1, 1, 0)]%Z [[9; 90]]%Z [(0, 1, 2)].
Definition zoneA1 : @zone_rec ZOps := mkZone (lit "A") [lit "T"; lit "Hw"]
  [(0, 0, 0); (1, 0, 0); (0, 1, 0)]%Z [[7; 70]]%Z [(0, 1, 2)].
Definition zoneA2 : @zone_rec ZOps := mkZone (lit "A") [lit "T"; lit "Hw"]
  [(0, 0, 0); (1, 0, 0); (0, 1, 0); (0, -1, 0)]%Z [[7; 70]; [8; 80]]%Z [(0, 1, 2); (1, 0, 3)].
Definition zoneB2 : @zone_rec ZOps := mkZone (lit "B") [lit "T"; lit "Hw"]
  [(1, 0, 0); (0, 0, 0); (0, 0, 5)]%Z [[9; 90]]%Z [(0, 1, 2)].

(** Evaluation of the form of the concrete files. *)
Ltac nth_tac := intros i; do 4 (destruct i as [|i]; [cbn; intros; match goal with
  | H : Some _ = Some _ |- _ => injection H as ?; subst
  | H : None = Some _ |- _ => discriminate H end; repeat split; repeat constructor|]);
  cbn; intros; try discriminate; destruct i; discriminate.
Ltac numbers := match goal with |- number_line ?l ?v =>
    let s := eval vm_compute in (split_ws l) in
    change (Forall2 (fun w (x : @val ZOps) => prs w = Some x) s v) end;
  repeat (eapply Forall2_cons; [reflexivity|]); apply Forall2_nil.
Ltac corner := do 6 eexists; repeat (split; [reflexivity|]); reflexivity.
Ltac block := do 19 eexists; split; [reflexivity|];
  split; [split; [reflexivity|eexists; split; reflexivity]|];
  split; [split; [reflexivity|eexists; split; reflexivity]|];
  split; [eexists; reflexivity|]; split; [eexists; reflexivity|]; split; [eexists; reflexivity|];
  split; [reflexivity|]; split; [reflexivity|];
  split; [numbers|]; split; [numbers|]; split; [numbers|];
  split; [reflexivity|]; split; [nth_tac|]; split; [reflexivity|];
  split; [repeat (eapply Forall2_cons; [numbers|]); apply Forall2_nil|];
  split; [reflexivity|]; split; [nth_tac|]; split; [reflexivity|];
  repeat (eapply Forall2_cons; [corner|]); apply Forall2_nil.
Ltac zone_tac r := refine (ff_zone _ _ _ r _ _ _ _ _); [repeat (split; [discriminate || reflexivity|]); eexists; split; reflexivity|block|].
Ltac vars_tac := eapply ff_vars; [repeat (split; [discriminate || reflexivity|]); eexists; split; reflexivity|].

Lemma two_zones_form : @file_form ZOps [] (file_lines two_zones)
  [ETitle (lit "plate"); EZone zoneA; EZone zoneB].
Proof.
  vm_compute file_lines. apply ff_comment; [reflexivity|].
  apply ff_title; [split; [discriminate|]; split; [reflexivity|]; eexists; split; reflexivity|].
  vars_tac. zone_tac zoneA. zone_tac zoneB. apply ff_end.
Qed.

Lemma no_title_form : @file_form ZOps [] (file_lines no_title) [EZone zoneA1].
Proof. vm_compute file_lines. vars_tac. zone_tac zoneA1. apply ff_end. Qed.

Lemma three_on_edge_form : @file_form ZOps [] (file_lines three_on_edge) [EZone zoneA2; EZone zoneB2].
Proof. vm_compute file_lines. vars_tac. zone_tac zoneA2. zone_tac zoneB2. apply ff_end. Qed.

Lemma zero_entry_form : @file_form ZOps [] (file_lines zero_entry) [EZone zoneA1].
Proof. vm_compute file_lines. vars_tac. zone_tac zoneA1. apply ff_end. Qed.

Lemma two_zones_nd : @no_degenerate ZOps [zoneA; zoneB].
Proof.
  intros t Ht. vm_compute in Ht. destruct Ht as [<-|[<-|[<-|[]]]];
    repeat (constructor; [cbn; intuition discriminate|]); constructor.
Qed.

Lemma two_zones_manifold : ~ @three_share ZOps [zoneA; zoneB].
Proof.
  intros (i & j & k & ti & tj & tk & p & q & L1 & L2 & Hpq & E1 & E2 & E3 & [P1 Q1] & [P2 Q2] & [P3 Q3]).
  assert (k < 3) by (change 3 with (length (@file_faces ZOps [zoneA; zoneB])); apply nth_error_Some; congruence).
  assert (i = 0) by lia. assert (j = 1) by lia. assert (k = 2) by lia. subst i j k.
  vm_compute in E1. vm_compute in E2. vm_compute in E3.
  injection E1 as <-. injection E2 as <-. injection E3 as <-.
  assert (G : forall r : rc, In r [(0, 0, 0); (1, 0, 0); (0, 1, 0)]%Z -> In r [(0, 0, 0); (0, 1, 0); (-1, -1, 0)]%Z ->
    In r [(1, 0, 0); (0, 1, 0); (1, 1, 0)]%Z -> r = (0, 1, 0)%Z).
  { intros r H1 H2 H3. cbn in H1, H2, H3. destruct H1 as [<-|[<-|[<-|[]]]]; auto; exfalso; intuition discriminate. }
  apply Hpq. rewrite (G p), (G q); auto.
Qed.

Lemma three_on_edge_share : @three_share ZOps [zoneA2; zoneB2].
Proof.
  exists 0, 1, 2. do 3 eexists. exists (0, 0, 0)%Z, (1, 0, 0)%Z.
  split; [lia|]. split; [lia|]. split; [discriminate|].
  split; [reflexivity|]. split; [reflexivity|]. split; [reflexivity|].
  vm_compute. intuition.
Qed.
