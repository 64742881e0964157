(** Concrete numbers and a concrete file used by the examples about doubles. *)

From Coq Require Import ZArith NArith Reals Lra Ascii String Bool Lia List Floats.SpecFloat.
From Flocq Require Import Core.Core IEEE754.BinarySingleNaN.
From Verif Require Import Py Heap GridModel GridSpec GridIO FileSpec StoreSpec LoadProps Samples SamplesIO Double DoubleSpec DoubleProofs DoubleMore.
Import ListNotations.
Open Scope list_scope.
Open Scope nat_scope.

(** The number with a decimal notation. *)
Definition d (t : str) : number := match @prs DoubleOps t with Some v => v | None => @val0 DoubleOps end.

Lemma reads : forall t, match @prs DoubleOps t with Some _ => true | None => false end = true -> @prs DoubleOps t = Some (d t).
Proof. intros t. unfold d. destruct (prs t); [reflexivity|discriminate]. Qed.

(** Two zones of one face; the first points of them differ by 10 ^ -11. *)
Definition tiny : str := text_of
  (["VARIABLES=""X"", ""Y"", ""Z"", ""T"", ""Hw"""]%string ++
   zone_head "A" "3" "1" ++ ["0 0.1 0"; "0 0 1e-1"; "0 0 0"; "2.5"; "-7"; "1 2 3"]%string ++
   zone_head "B" "3" "1" ++ ["1e-11 0 -.1"; "0 .1 0"; "0 0 0"; "1E+300"; "5e-324"; "1 2 3"]%string).

(** The zones of it, [d] being any reading of numbers. *)
Definition tiny_A {F : FloatOps} (d : str -> val) : zone_rec := mkZone (lit "A") [lit "T"; lit "Hw"]
  [(d (lit "0"), d (lit "0"), d (lit "0")); (d (lit "0.1"), d (lit "0"), d (lit "0")); (d (lit "0"), d (lit "1e-1"), d (lit "0"))]
  [[d (lit "2.5"); d (lit "-7")]] [(0, 1, 2)].
Definition tiny_B {F : FloatOps} (d : str -> val) : zone_rec := mkZone (lit "B") [lit "T"; lit "Hw"]
  [(d (lit "1e-11"), d (lit "0"), d (lit "0")); (d (lit "0"), d (lit ".1"), d (lit "0")); (d (lit "-.1"), d (lit "0"), d (lit "0"))]
  [[d (lit "1E+300"); d (lit "5e-324")]] [(0, 1, 2)].

Ltac numbers := match goal with |- @number_line ?F ?l ?v =>
    let s := eval vm_compute in (split_ws l) in
    change (Forall2 (fun w (x : @val F) => prs w = Some x) s v) end;
  repeat (eapply Forall2_cons; [match goal with H : _ |- _ => apply H; cbn; tauto end|]); apply Forall2_nil.

Ltac block := do 19 eexists; split; [reflexivity|];
  split; [split; [reflexivity|eexists; split; reflexivity]|];
  split; [split; [reflexivity|eexists; split; reflexivity]|];
  split; [eexists; reflexivity|]; split; [eexists; reflexivity|]; split; [eexists; reflexivity|];
  split; [reflexivity|]; split; [reflexivity|];
  split; [numbers|]; split; [numbers|]; split; [numbers|];
  split; [reflexivity|]; split; [nth_tac|]; split; [reflexivity|];
  split; [repeat (eapply Forall2_cons; [numbers|]); apply Forall2_nil|];
  split; [reflexivity|]; split; [nth_tac|]; split; [reflexivity|];
  repeat (eapply Forall2_cons; [corner|]); apply Forall2_nil.
Ltac zone_tac r := refine (ff_zone _ _ _ r _ _ _ _ _); [repeat (split; [discriminate || reflexivity|]); eexists; split; reflexivity|block|].

Definition tiny_words : list str := map lit ["0"; "0.1"; "1e-1"; "2.5"; "-7"; "1e-11"; ".1"; "-.1"; "1E+300"; "5e-324"]%string.

Lemma tiny_any : forall (F : FloatOps) (d : str -> val), (forall t, In t tiny_words -> prs t = Some (d t)) ->
  file_form [] (file_lines tiny) [EZone (tiny_A d); EZone (tiny_B d)].
Proof. intros F d H. vm_compute file_lines. vars_tac. zone_tac (tiny_A d). zone_tac (tiny_B d). apply ff_end. Qed.

Definition tinyA : @zone_rec DoubleOps := @tiny_A DoubleOps d.
Definition tinyB : @zone_rec DoubleOps := @tiny_B DoubleOps d.

Lemma tiny_form : @file_form DoubleOps [] (file_lines tiny) [EZone tinyA; EZone tinyB].
Proof.
  apply (@tiny_any DoubleOps d). intros t I. apply reads. revert t I. apply Forall_forall. unfold tiny_words. cbn [map]. repeat (apply Forall_cons; [vm_compute; reflexivity|]). apply Forall_nil.
Qed.

Lemma tiny_loads : exists h', @load DoubleOps true tiny (new_grid empty_heap) = (Ok tt, h') /\ length (g_nodes h') = 4 /\
  map (fun n => map (fun x => @fmt DoubleOps x) (let '(x, y, z) := n_p h' n in [x; y; z])) (firstn 1 (g_nodes h')) = [[lit "0.000000000000000000e+00"; lit "0.000000000000000000e+00"; lit "0.000000000000000000e+00"]].
Proof.
  eexists. split; [apply ok_pair; vm_compute; reflexivity|]. split; vm_compute; reflexivity.
Qed.

(** Neighbours on the two sides of half a ten-billionth. *)
Definition above : double := of_decimal false 5 (-11).
Definition below : double := Bpred above.

Lemma neighbours_main : exists x y : number, is_finite (proj1_sig x) = true /\ is_finite (proj1_sig y) = true /\
  (0 < Rabs (B2R (proj1_sig x) - B2R (proj1_sig y)) < ten (-26))%R /\ @rnd1 DoubleOps x <> @rnd1 DoubleOps y /\ units (proj1_sig x) <> units (proj1_sig y).
Proof.
  assert (Nb : is_nan below = false) by (vm_compute; reflexivity). assert (Na : is_nan above = false) by (vm_compute; reflexivity).
  exists (exist _ below Nb), (exist _ above Na). cbn [proj1_sig].
  assert (Fb : is_finite below = true) by (vm_compute; reflexivity). assert (Fa : is_finite above = true) by (vm_compute; reflexivity).
  assert (Ne : up_to_eq (round10 below) <> up_to_eq (round10 above)) by (vm_compute; discriminate).
  split; [exact Fb|]. split; [exact Fa|]. split.
  - assert (Eb : B2R below = (IZR 7737125245533626 * bpow radix2 (-87))%R).
    { rewrite <- SF2R_B2SF. replace (B2SF below) with (S754_finite false 7737125245533626 (-87)) by (vm_compute; reflexivity). reflexivity. }
    assert (Ea : B2R above = (IZR 7737125245533627 * bpow radix2 (-87))%R).
    { rewrite <- SF2R_B2SF. replace (B2SF above) with (S754_finite false 7737125245533627 (-87)) by (vm_compute; reflexivity). reflexivity. }
    rewrite Eb, Ea. replace (IZR 7737125245533626 * bpow radix2 (-87) - IZR 7737125245533627 * bpow radix2 (-87))%R with (- bpow radix2 (-87))%R by ring.
    rewrite Rabs_Ropp, Rabs_pos_eq by apply bpow_ge_0. split; [apply bpow_gt_0|]. unfold ten. cbn [bpow].
    apply Rinv_lt_contravar.
    + apply Rmult_lt_0_compat; apply IZR_lt; vm_compute; reflexivity.
    + apply IZR_lt. vm_compute. reflexivity.
  - split; [exact Ne|]. intros E. apply Ne. apply (round_iff below above Fb Fa). exact E.
Qed.
