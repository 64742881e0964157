(** A file with a node that no face of its zone uses: stored files change once. *)

From Coq Require Import ZArith Ascii String Bool Lia List.
From Verif Require Import Py Heap GridModel GridSpec GridIO FileSpec StoreSpec LoadProps Samples SamplesIO SamplesStore StableSpec StableFinal.
Import ListNotations.
Open Scope list_scope.
Open Scope nat_scope.

(** The first node of zone A is used in zone B only. *)
Definition spare_node : str := text_of
  (["TITLE=""plate"""; "VARIABLES=""X"", ""Y"", ""Z"", ""T"", ""Hw"""]%string ++
   zone_head "A" "4" "1" ++ ["1 0 1 0"; "1 0 0 1"; "0 0 0 0"; "7"; "70"; "2 3 4"]%string ++
   zone_head "B" "3" "1" ++ ["1 1 0"; "1 0 1"; "0 0 0"; "9"; "90"; "1 3 2"]%string).

Definition spare_first : str := text_of
  (["# crys-gsu"; "TITLE=""plate"""; "VARIABLES=""X"", ""Y"", ""Z"", ""T"", ""Hw"""]%string ++
   zone_head "A" "3" "1" ++ ["0 1 0 "; "0 0 1 "; "0 0 0 "; "7 "; "70 "; "1 2 3"]%string ++
   zone_head "B" "3" "1" ++ ["1 1 0 "; "1 0 1 "; "0 0 0 "; "9 "; "90 "; "1 3 2"]%string).

Definition spare_second : str := text_of
  (["# crys-gsu"; "TITLE=""plate"""; "VARIABLES=""X"", ""Y"", ""Z"", ""T"", ""Hw"""]%string ++
   zone_head "A" "3" "1" ++ ["0 1 0 "; "0 0 1 "; "0 0 0 "; "7 "; "70 "; "1 2 3"]%string ++
   zone_head "B" "3" "1" ++ ["1 0 1 "; "0 1 1 "; "0 0 0 "; "9 "; "90 "; "3 2 1"]%string).

Definition stored (text : str) : res str :=
  let '(r, h) := @load ZOps true text empty_heap in match r with Ok _ => store h | Raise e => Raise e end.

Lemma spare_one : stored spare_node = Ok spare_first.
Proof. vm_compute. reflexivity. Qed.
Lemma spare_two : stored spare_first = Ok spare_second.
Proof. vm_compute. reflexivity. Qed.

Lemma stored_inv : forall text out, stored text = Ok out -> exists h, @load ZOps true text empty_heap = (Ok tt, h) /\ store h = Ok out.
Proof.
  intros text out H. unfold stored in H. destruct (load true text empty_heap) as [[[]|e] h]; [|discriminate H]. exists h. auto.
Qed.

Lemma first_second : spare_first <> spare_second.
Proof. intros H. apply (f_equal (fun s => str_eqb s spare_second)) in H. vm_compute in H. discriminate H. Qed.

Lemma file_changes : exists (F : FloatOps) text h0 h t1 h1 t2, faithful_numbers /\ load true text h0 = (Ok tt, h) /\ store h = Ok t1 /\
  load true t1 h0 = (Ok tt, h1) /\ store h1 = Ok t2 /\ t2 <> t1.
Proof.
  destruct (stored_inv _ _ spare_one) as (h & L & S1). destruct (stored_inv _ _ spare_two) as (h1 & L1 & S2).
  exists ZOps, spare_node, empty_heap, h, spare_first, h1, spare_second. split; [exact Z_faithful|]. split; [exact L|]. split; [exact S1|]. split; [exact L1|].
  split; [exact S2|]. intros H. exact (first_second (eq_sym H)).
Qed.

Lemma two_zones_used : @all_used ZOps [zoneA; zoneB].
Proof.
  intros zr [<-|[<-|[]]] j Hj; cbn in Hj.
  - destruct j as [|[|[|[|j]]]]; [exists (0, 1, 2)|exists (0, 1, 2)|exists (0, 1, 2)|exists (0, 2, 3)|lia]; cbn; auto.
  - exists (0, 1, 2). destruct j as [|[|[|j]]]; [| | |lia]; cbn; auto.
Qed.
