(** Concrete files for Grid.Import. *)

From Coq Require Import ZArith NArith Ascii String Bool Lia List.
From Verif Require Import Py PyLemmas TextLemmas Heap GridModel GridSpec GridIO FileSpec StoreSpec RoundTrip PlainProofs Samples SamplesIO SamplesStore
  MergeProofs LoadProps AnsysSpec AnsysText Import ImportSpec ImportProofs.
Import ListNotations.
Open Scope list_scope.
Open Scope nat_scope.

(** The head of a zone with eight or nine variables of faces. *)
Definition wide_head (name n m nv : string) : list string :=
  [("ZONE T=""" ++ name ++ """")%string; ("NODES=" ++ n)%string; ("ELEMENTS=" ++ m)%string;
   "DATAPACKING=BLOCK"%string; "ZONETYPE=FETRIANGLE"%string; ("VARLOCATION=([4-" ++ nv ++ "]=CELLCENTERED)")%string].

(** A square of two faces with eight variables; the zone is called [name]. *)
Definition eight_text (name : string) : str := text_of
  (["TITLE=""ice"""; "VARIABLES=""X"", ""Y"", ""Z"", ""T"", ""Hw"", ""Hi"", ""HTC"", ""Beta"", ""TauX"", ""TauY"", ""TauZ"""]%string ++
   wide_head name "4" "2" "11" ++ ["0 1 1 0"; "0 0 1 1"; "0 0 0 0"; "7 8"; "1 2"; "3 4"; "50 51"; "60 61"; "70 71"; "80 81"; "90 91"; "1 2 3"; "1 3 4"]%string).
Definition eight_zone (name : string) : @zone_rec ZOps := mkZone (lit name) eight
  [(0, 0, 0); (1, 0, 0); (1, 1, 0); (0, 1, 0)]%Z [[7; 1; 3; 50; 60; 70; 80; 90]; [8; 2; 4; 51; 61; 71; 81; 91]]%Z [(0, 1, 2); (0, 2, 3)].

Lemma eight_form : @file_form ZOps [] (file_lines (eight_text "A")) [ETitle (lit "ice"); EZone (eight_zone "A")].
Proof.
  vm_compute file_lines.
  apply ff_title; [split; [discriminate|]; split; [reflexivity|]; eexists; split; reflexivity|].
  vars_tac. zone_tac (eight_zone "A"). apply ff_end.
Qed.

Lemma eight_nd : @no_degenerate ZOps (zones_of [ETitle (lit "ice"); EZone (eight_zone "A")]).
Proof.
  intros t Ht. vm_compute in Ht. destruct Ht as [<-|[<-|[]]];
    repeat (constructor; [cbn; intuition discriminate|]); constructor.
Qed.

Definition eight_heap : @heap ZOps := snd (load true (eight_text "A") (new_grid empty_heap)).

Lemma eight_run : load true (eight_text "A") (new_grid empty_heap) = (Ok tt, eight_heap).
Proof.
  assert (E : fst (load true (eight_text "A") (@new_grid ZOps empty_heap)) = Ok tt) by (vm_compute; reflexivity).
  exact (ok_pair (load true (eight_text "A") (new_grid empty_heap)) E).
Qed.

Lemma eight_good : grid_ok eight_heap /\ zone_lists_ok eight_heap /\ numbered eight_heap /\ writable eight_heap /\ grid_vars eight_heap = eight.
Proof.
  destruct (loaded_good _ _ _ _ eight_run eight_form eight_nd) as (A & B & C & D).
  split; [exact A|]. split; [exact B|]. split; [exact C|]. split; [|vm_compute; reflexivity].
  apply (loaded_writable _ _ _ _ eight_run eight_form); [vm_compute; discriminate|].
  apply (loaded_names _ _ _ _ _ eight_run eight_form). right. intros c [].
Qed.

Lemma eight_quiet : forall z, In z (g_zones eight_heap) -> quiet (z_name eight_heap z).
Proof.
  intros z I. vm_compute in I. destruct I as [<-|[]]. intros w Iw. apply contains_not.
  cbn [In] in Iw. repeat destruct Iw as [<-|Iw]; try (vm_compute; reflexivity). destruct Iw.
Qed.

(** A zone whose name contains a word of the headers: it is not imported. *)
Definition lost_heap : @heap ZOps := snd (load true (eight_text "SUBTITLE") (@new_grid ZOps empty_heap)).
Lemma lost_run : load true (eight_text "SUBTITLE") (@new_grid ZOps empty_heap) = (Ok tt, lost_heap).
Proof.
  assert (E : fst (load true (eight_text "SUBTITLE") (@new_grid ZOps empty_heap)) = Ok tt) by (vm_compute; reflexivity).
  exact (ok_pair (load true (eight_text "SUBTITLE") (new_grid empty_heap)) E).
Qed.
Lemma lost_one : List.length (g_zones lost_heap) = 1.
Proof. vm_compute. reflexivity. Qed.
Lemma lost_out : exists out, store lost_heap = Ok out /\ import_grid out = Ok [].
Proof. eexists. split; [vm_compute; reflexivity|]. vm_compute. reflexivity. Qed.

(** Integers written with a decimal point, as floats are. *)
Definition dot : ascii := "."%char.
Definition DOps : FloatOps := {|
  val := Z; val0 := 0%Z; rval := Z; rnd1 := fun x => x; rval_dec := Z.eq_dec;
  fmt := fun z => Z_str z ++ lit ".0";
  prs := fun s => match py_int (match split_on dot s with w :: _ => w | [] => [] end) with Ok z => Some z | Raise _ => None end;
  vltb := Z.ltb;
  vdist := fun a b => @vdist ZOps a b;
  vmid := fun a b => @vmid ZOps a b;
  vcen := fun a b c => @vcen ZOps a b c |}.

Lemma D_faithful : @faithful_numbers DOps.
Proof.
  intros v. cbn [prs fmt DOps]. destruct (Z_faithful v) as (_ & N & S). cbn [fmt ZOps] in N, S.
  assert (D : ~ In dot (Z_str v)).
  { intros I. assert (G : forall p, ~ In dot (N_str p)).
    { intros p K. pose proof (N_str_digits p) as H. rewrite forallb_forall in H. apply H in K. vm_compute in K. discriminate. }
    destruct v as [|p|p]; cbn [Z_str] in I; [apply (G 0%N I)|apply (G (N.pos p) I)|]. destruct I as [E|I]; [discriminate|apply (G (N.pos p) I)]. }
  split; [|split].
  - change (lit ".0") with (dot :: lit "0"). rewrite split_on_one; [|exact D|intros [E|[]]; discriminate]. rewrite py_int_Z_str. reflexivity.
  - destruct (Z_str v); discriminate.
  - intros c I. apply in_app_iff in I as [I|I]; [auto|]. cbn in I. destruct I as [<-|[<-|[]]]; reflexivity.
Qed.

(** The same square with one more variable. *)
Definition nine_text : str := text_of
  (["TITLE=""ice"""; "VARIABLES=""X"", ""Y"", ""Z"", ""T"", ""Hw"", ""Hi"", ""HTC"", ""Beta"", ""TauX"", ""TauY"", ""TauZ"", ""RecoveryFactor"""]%string ++
   wide_head "A" "4" "2" "12" ++ ["0 1 1 0"; "0 0 1 1"; "0 0 0 0"; "7 8"; "1 2"; "3 4"; "50 51"; "60 61"; "70 71"; "80 81"; "90 91"; "1 1"; "1 2 3"; "1 3 4"]%string).
Lemma nine_run : fst (@load DOps true nine_text (@new_grid DOps empty_heap)) = Ok tt /\
  @grid_vars DOps (snd (@load DOps true nine_text (@new_grid DOps empty_heap))) = eight ++ [lit "RecoveryFactor"] /\
  exists out, @store DOps (snd (@load DOps true nine_text (@new_grid DOps empty_heap))) = Ok out /\ @import_grid DOps out = Raise EValueError.
Proof.
  split; [vm_compute; reflexivity|]. split; [vm_compute; reflexivity|].
  eexists. split; [vm_compute; reflexivity|]. vm_compute. reflexivity.
Qed.
