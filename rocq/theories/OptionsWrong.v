(** Proofs about json files of the wrong shape. *)

From Coq Require Import ZArith Reals Ascii String Bool List Lia.
From Verif Require Import Py PyLemmas Heap HeapLemmas GridModel Mpi GridIO Geom Remesh RemeshMore Driver Programs Options OptionsSpec OptionsProofs.
Import ListNotations.
Open Scope list_scope.
Open Scope nat_scope.

Lemma strategy_ok : forall {num} strat (j : json num) s, chosen strat j s ->
  match strat with Some s => Ok (JStr s) | None => extract_strategy (Some j) end = Ok (JStr s).
Proof.
  intros num strat j s [->|(-> & [M|(L & ->)])]; [reflexivity|cbn [extract_strategy]; rewrite (jget_member _ _ _ M); reflexivity|
    cbn [extract_strategy]; rewrite (jget_lacks _ _ L); reflexivity].
Qed.

Lemma elements_no_list : forall {F : FloatOps} one of_int grid sf strat j hs els s t h,
  chosen strat j s -> member j "heating_system" hs -> member hs "elements" els ->
  (forall l, els <> JList l) -> els <> JObj [] -> els <> JStr [] ->
  split_program one of_int grid sf strat (Some (Some j)) t h = (Raise ETypeError, h).
Proof.
  intros F one of_int grid sf strat j hs els s t h Hs A B Nl No Ns.
  assert (Ef : extract_fixed_zones (Some j) = Raise ETypeError).
  { cbn [extract_fixed_zones]. rewrite (jget_member _ _ _ A). cbn [rbind]. rewrite (jget_member _ _ _ B). cbn [rbind].
    destruct els as [| | | |x|l|d]; try reflexivity.
    - destruct x as [|c x]; [congruence|]. reflexivity.
    - exfalso. exact (Nl l eq_refl).
    - destruct d as [|[k v] d]; [congruence|]. reflexivity. }
  unfold split_program, split_options. rewrite (strategy_ok _ _ _ Hs). cbn [rbind]. rewrite Ef. reflexivity.
Qed.

Lemma elements_empty : forall {F : FloatOps} one of_int grid sf strat j hs els s rf t h,
  chosen strat j s -> factor one of_int j rf -> member j "heating_system" hs -> member hs "elements" els ->
  els = JObj [] \/ els = JStr [] \/ els = JList [] ->
  split_program one of_int grid sf strat (Some (Some j)) t h = split grid sf s [] rf t h.
Proof.
  intros F one of_int grid sf strat j hs els s rf t h Hs Hr A B C.
  assert (Ef : extract_fixed_zones (Some j) = Ok []).
  { cbn [extract_fixed_zones]. rewrite (jget_member _ _ _ A). cbn [rbind]. rewrite (jget_member _ _ _ B). cbn [rbind].
    destruct C as [->|[->| ->]]; reflexivity. }
  assert (E2 : exists r, extract_recovery_factor one (Some j) = Ok r /\ as_number of_int r = Ok rf).
  { destruct Hr as [M|[(z & M & ->)|(L & ->)]]; cbn [extract_recovery_factor].
    - exists (JFloat rf). rewrite (jget_member _ _ _ M). split; reflexivity.
    - exists (JInt z). rewrite (jget_member _ _ _ M). split; reflexivity.
    - exists (JFloat one). rewrite (jget_lacks _ _ L). split; reflexivity. }
  destruct E2 as (r & E2 & E3). unfold split_program, split_options. rewrite (strategy_ok _ _ _ Hs). cbn [rbind]. rewrite Ef. cbn [rbind].
  rewrite E2. cbn [rbind]. rewrite bind_lift_ok. cbn [rmap as_strategy]. rewrite !bind_lift_ok, E3, bind_lift_ok. reflexivity.
Qed.

Lemma zones_read : forall {num} (els vs : list (json num)), Forall2 (fun e v => member e "zone" v) els vs ->
  rmap (fun e : json num => jget e (lit "zone")) els = Ok vs.
Proof.
  intros num els vs C. induction C as [|e v els vs M C IH]; [reflexivity|]. cbn [rmap]. rewrite (jget_member _ _ _ M). cbn [rbind].
  rewrite IH. reflexivity.
Qed.

Lemma zone_no_name : forall {F : FloatOps} one of_int grid sf strat j hs els vs v s t h,
  chosen strat j s -> member j "heating_system" hs -> member hs "elements" (JList els) ->
  Forall2 (fun e v => member e "zone" v) els vs -> In v vs -> (forall nm, v <> JStr nm) ->
  exists e, split_program one of_int grid sf strat (Some (Some j)) t h = (Raise e, h).
Proof.
  intros F one of_int grid sf strat j hs els vs v s t h Hs A B C Hv Hn.
  assert (Ef : extract_fixed_zones (Some j) = Ok vs).
  { cbn [extract_fixed_zones]. rewrite (jget_member _ _ _ A). cbn [rbind]. rewrite (jget_member _ _ _ B). cbn [rbind jiter].
    rewrite (zones_read _ _ C). reflexivity. }
  assert (En : exists e, rmap as_name vs = Raise e).
  { clear - Hv Hn. induction vs as [|w vs IH]; [destruct Hv|]. cbn [rmap]. destruct Hv as [->|Hv].
    - destruct v; try (eexists; reflexivity). exfalso. exact (Hn _ eq_refl).
    - destruct (as_name w); [|eexists; reflexivity]. cbn [rbind]. destruct (IH Hv) as (e & ->). exists e. reflexivity. }
  destruct En as (e & En). unfold split_program, split_options. rewrite (strategy_ok _ _ _ Hs). cbn [rbind]. rewrite Ef. cbn [rbind].
  destruct (extract_recovery_factor one (Some j)) as [r|x]; [|exists x; reflexivity]. cbn [rbind]. rewrite bind_lift_ok, En. exists e. reflexivity.
Qed.

Lemma strategy_no_text : forall {F : FloatOps} one of_int grid sf j v t h, member j "split_strategy" v -> (forall s, v <> JStr s) ->
  exists e, fst (split_program one of_int grid sf None (Some (Some j)) t h) = Raise e.
Proof.
  intros F one of_int grid sf j v t h A N. unfold split_program, split_options. cbn [extract_strategy]. rewrite (jget_member _ _ _ A). cbn [or_key_error rbind].
  destruct (extract_fixed_zones (Some j)) as [fz|x]; [|exists x; reflexivity]. cbn [rbind].
  destruct (extract_recovery_factor one (Some j)) as [r|x]; [|exists x; reflexivity]. cbn [rbind]. rewrite bind_lift_ok.
  destruct (rmap as_name fz) as [names|x]; [|exists x; reflexivity]. rewrite bind_lift_ok.
  destruct v; try (exists ETypeError; reflexivity). exfalso. exact (N _ eq_refl).
Qed.
