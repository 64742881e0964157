(** Proofs about json options. *)

From Coq Require Import ZArith Reals Ascii String Bool List Lia.
From Verif Require Import Py PyLemmas Heap HeapLemmas GridModel Mpi GridIO Geom Remesh RemeshMore Driver Programs Options OptionsSpec.
Import ListNotations.
Open Scope list_scope.
Open Scope nat_scope.

Lemma dget_none : forall {V} (d : dict str V) k, ~ In k (keys d) -> dget str_dec d k = None.
Proof.
  intros V d k H. induction d as [|[k' v] r IH]; [reflexivity|]. cbn [dget]. destruct (str_dec k k') as [->|_].
  - exfalso. apply H. left. reflexivity.
  - apply IH. intros I. apply H. right. exact I.
Qed.

Lemma jget_member : forall {num} (j : json num) k v, member j k v -> jget j (lit k) = Ok v.
Proof. intros num j k v (d & -> & E). cbn [jget]. rewrite E. reflexivity. Qed.

Lemma jget_lacks : forall {num} (j : json num) k, lacks j k -> jget j (lit k) = Raise EKeyError.
Proof. intros num j k (d & -> & E). cbn [jget]. rewrite (dget_none _ _ E). reflexivity. Qed.

Lemma heated_ok : forall {num} (j : json num) names, heated j names -> extract_fixed_zones (Some j) = Ok (map JStr names).
Proof.
  intros num j names [(hs & els & A & B & C)|[(A & ->)|(hs & A & B & ->)]]; cbn [extract_fixed_zones].
  - rewrite (jget_member _ _ _ A). cbn [rbind]. rewrite (jget_member _ _ _ B). cbn [rbind jiter].
    assert (E : rmap (fun e : json num => jget e (lit "zone")) els = Ok (map JStr names)); [|rewrite E; reflexivity].
    clear A B. induction C as [|e nm els names M C IH]; [reflexivity|]. cbn [rmap map]. rewrite (jget_member _ _ _ M). cbn [rbind].
    rewrite IH. reflexivity.
  - rewrite (jget_lacks _ _ A). reflexivity.
  - rewrite (jget_member _ _ _ A). cbn [rbind]. rewrite (jget_lacks _ _ B). reflexivity.
Qed.

Lemma names_back : forall {F : FloatOps} names, rmap as_name (map JStr names) = Ok names.
Proof. intros F. induction names as [|x r IH]; [reflexivity|]. cbn [map rmap as_name rbind]. rewrite IH. reflexivity. Qed.

Theorem program_is_split : forall {F : FloatOps} one of_int grid sf strat j s names rf t h,
  chosen strat j s -> heated j names -> factor one of_int j rf ->
  split_program one of_int grid sf strat (Some (Some j)) t h = split grid sf s names rf t h.
Proof.
  intros F one of_int grid sf strat j s names rf t h Hs Hn Hr.
  assert (E1 : match strat with Some s => Ok (JStr s) | None => extract_strategy (Some j) end = Ok (JStr s)).
  { destruct Hs as [->|(-> & [M|(L & ->)])]; [reflexivity|cbn [extract_strategy]; rewrite (jget_member _ _ _ M); reflexivity|
      cbn [extract_strategy]; rewrite (jget_lacks _ _ L); reflexivity]. }
  assert (E2 : exists r, extract_recovery_factor one (Some j) = Ok r /\ as_number of_int r = Ok rf).
  { destruct Hr as [M|[(z & M & ->)|(L & ->)]]; cbn [extract_recovery_factor].
    - exists (JFloat rf). rewrite (jget_member _ _ _ M). split; reflexivity.
    - exists (JInt z). rewrite (jget_member _ _ _ M). split; reflexivity.
    - exists (JFloat one). rewrite (jget_lacks _ _ L). split; reflexivity. }
  destruct E2 as (r & E2 & E3). unfold split_program.
  assert (E : split_options one strat (Some (Some j)) = Ok (JStr s, map JStr names, r)).
  { unfold split_options. rewrite E1. cbn [rbind]. rewrite (heated_ok _ _ Hn). cbn [rbind]. rewrite E2. reflexivity. }
  rewrite E, bind_lift_ok, names_back, bind_lift_ok. cbn [as_strategy]. rewrite bind_lift_ok, E3, bind_lift_ok. reflexivity.
Qed.

Theorem program_plain : forall {F : FloatOps} one of_int grid sf strat t h,
  split_program one of_int grid sf strat None t h = split grid sf (match strat with Some s => s | None => lit "n1" end) [] one t h.
Proof. intros F one of_int grid sf [s|] t h; reflexivity. Qed.

Theorem program_no_file : forall {F : FloatOps} one of_int grid sf strat t h,
  split_program one of_int grid sf strat (Some None) t h = (Raise EException, h).
Proof. intros F one of_int grid sf [s|] t h; reflexivity. Qed.

(** One element without a zone, and no zone is fixed. *)
Theorem element_without_zone : forall {F : FloatOps} one of_int grid sf strat j hs els s rf t h,
  chosen strat j s -> factor one of_int j rf -> member j "heating_system" hs -> member hs "elements" (JList els) ->
  Forall (fun e => (exists v, member e "zone" v) \/ lacks e "zone") els -> (exists e, In e els /\ lacks e "zone") ->
  split_program one of_int grid sf strat (Some (Some j)) t h = split grid sf s [] rf t h.
Proof.
  intros F one of_int grid sf strat j hs els s rf t h Hs Hr A B Hall He.
  assert (E : rmap (fun e : json val => jget e (lit "zone")) els = Raise EKeyError).
  { clear A B. induction els as [|e r IH]; [destruct He as (e & [] & _)|]. cbn [rmap].
    apply Forall_cons_iff in Hall as [[(v & M)|L] Hall].
    - rewrite (jget_member _ _ _ M). cbn [rbind]. rewrite IH; [reflexivity|exact Hall|].
      destruct He as (e' & [<-|I] & L); [|exists e'; split; assumption].
      destruct M as (d & -> & M). destruct L as (d' & Ed & L). injection Ed as <-. rewrite (dget_none _ _ L) in M. discriminate.
    - rewrite (jget_lacks _ _ L). reflexivity. }
  assert (Ef : extract_fixed_zones (Some j) = Ok []).
  { cbn [extract_fixed_zones]. rewrite (jget_member _ _ _ A). cbn [rbind]. rewrite (jget_member _ _ _ B). cbn [rbind jiter]. rewrite E. reflexivity. }
  assert (E1 : match strat with Some s => Ok (JStr s) | None => extract_strategy (Some j) end = Ok (JStr s)).
  { destruct Hs as [->|(-> & [M|(L & ->)])]; [reflexivity|cbn [extract_strategy]; rewrite (jget_member _ _ _ M); reflexivity|
      cbn [extract_strategy]; rewrite (jget_lacks _ _ L); reflexivity]. }
  assert (E2 : exists r, extract_recovery_factor one (Some j) = Ok r /\ as_number of_int r = Ok rf).
  { destruct Hr as [M|[(z & M & ->)|(L & ->)]]; cbn [extract_recovery_factor].
    - exists (JFloat rf). rewrite (jget_member _ _ _ M). split; reflexivity.
    - exists (JInt z). rewrite (jget_member _ _ _ M). split; reflexivity.
    - exists (JFloat one). rewrite (jget_lacks _ _ L). split; reflexivity. }
  destruct E2 as (r & E2 & E3). unfold split_program.
  assert (Eo : split_options one strat (Some (Some j)) = Ok (JStr s, [], r)).
  { unfold split_options. rewrite E1. cbn [rbind]. rewrite Ef. cbn [rbind]. rewrite E2. reflexivity. }
  rewrite Eo, bind_lift_ok. cbn [rmap as_strategy]. rewrite !bind_lift_ok, E3, bind_lift_ok. reflexivity.
Qed.

(* ================================================================== *)
(** ** The remesher *)

Definition given (d : dict str (json R)) (k a : string) (self : attrs) : attrs :=
  match dget str_dec d (lit k) with Some v => dset str_dec self (lit a) v | None => self end.

Lemma try_read_obj : forall d k a self, try_read (JObj d) k a self = Ok (given d k a self).
Proof. intros d k a self. unfold try_read, given. cbn [jget]. destruct (dget str_dec d (lit k)); reflexivity. Qed.

Lemma try_read_any_obj : forall d k a self, try_read_any (JObj d) k a self = Ok (given d k a self).
Proof. intros d k a self. unfold try_read_any, given. cbn [jget]. destruct (dget str_dec d (lit k)); reflexivity. Qed.

Definition pairs : list (string * string) :=
  [("export_stl", "export_stl"); ("remesh_verbose", "verbose"); ("remesh_nsteps_min", "nsteps_min"); ("remesh_nsteps_max", "nsteps_max");
   ("remesh_nsteps_hi_side_fact", "nsteps_hi_side_fact"); ("remesh_nsteps_ignore_part", "nsteps_ignore_part");
   ("remesh_nsmooth_steps", "nsmooth_steps"); ("remesh_nsmooth_s", "nsmooth_s"); ("remesh_nsmooth_k", "nsmooth_k");
   ("remesh_hsmooth_steps", "hsmooth_steps"); ("remesh_hsmooth_alfa", "hsmooth_alfa"); ("remesh_hsmooth_beta", "hsmooth_beta");
   ("remesh_rest_volume_redistr", "rest_volume_redistr"); ("remesh_nss_steps", "nss_steps"); ("remesh_nss_epsilon", "nss_epsilon");
   ("remesh_nss_st", "nss_st"); ("remesh_nss_fix_nodes", "nss_fix_nodes"); ("remesh_pseudo_2d_oz", "pseudo_2d_oz")]%string.

Lemma read_obj : forall d self, try_to_read_options (JObj d) self = Ok (fold_left (fun s p => given d (fst p) (snd p) s) pairs self).
Proof.
  intros d self. unfold try_to_read_options. repeat (rewrite try_read_obj; cbn [rbind]). rewrite try_read_any_obj. reflexivity.
Qed.

Lemma given_other : forall d k a self x, x <> lit a -> dget str_dec (given d k a self) x = dget str_dec self x.
Proof. intros d k a self x N. unfold given. destruct (dget str_dec d (lit k)); [|reflexivity]. rewrite PyLemmas.dget_dset. destruct (str_dec x (lit a)); [contradiction|reflexivity]. Qed.

Lemma given_same : forall d k a self, dget str_dec (given d k a self) (lit a) =
  match dget str_dec d (lit k) with Some v => Some v | None => dget str_dec self (lit a) end.
Proof. intros d k a self. unfold given. destruct (dget str_dec d (lit k)); [|reflexivity]. rewrite PyLemmas.dget_dset. destruct (str_dec (lit a) (lit a)); [reflexivity|contradiction]. Qed.

Lemma fold_other : forall d ps self x, ~ In x (map (fun p => lit (snd p)) ps) ->
  dget str_dec (fold_left (fun s p => given d (fst p) (snd p) s) ps self) x = dget str_dec self x.
Proof.
  intros d ps. induction ps as [|p r IH]; intros self x N; [reflexivity|]. cbn [fold_left]. rewrite IH.
  - apply given_other. intros ->. apply N. left. reflexivity.
  - intros I. apply N. right. exact I.
Qed.

Lemma fold_value : forall d ps self k a, NoDup (map (fun p => lit (snd p)) ps) -> In (k, a) ps ->
  dget str_dec (fold_left (fun s p => given d (fst p) (snd p) s) ps self) (lit a) =
  match dget str_dec d (lit k) with Some v => Some v | None => dget str_dec self (lit a) end.
Proof.
  intros d ps. induction ps as [|p r IH]; intros self k a Nd I; [destruct I|]. cbn [map] in Nd. apply NoDup_cons_iff in Nd as [Np Nd].
  cbn [fold_left]. destruct I as [->|I].
  - cbn [fst snd] in *. rewrite fold_other; [apply given_same|exact Np].
  - rewrite (IH _ k a Nd I). rewrite given_other; [reflexivity|]. intros E. apply Np. rewrite <- E. apply (in_map (fun p => lit (snd p))) in I. exact I.
Qed.

Fixpoint distinct (l : list str) : bool := match l with [] => true | x :: r => negb (existsb (str_eqb x) r) && distinct r end.

Lemma distinct_ok : forall l, distinct l = true -> NoDup l.
Proof.
  induction l as [|x r IH]; intros H; [constructor|]. cbn [distinct] in H. apply andb_prop in H as [H1 H2]. constructor; [|exact (IH H2)].
  intros I. apply negb_true_iff in H1. enough (existsb (str_eqb x) r = true) by congruence.
  apply existsb_exists. exists x. split; [exact I|]. apply str_eqb_eq. reflexivity.
Qed.

Lemma pairs_distinct : NoDup (map (fun p => lit (snd p)) pairs).
Proof. apply distinct_ok. vm_compute. reflexivity. Qed.

Lemma ok_inj : forall A (a b : A), Ok a = Ok b -> a = b.
Proof. intros A a b E. injection E as <-. reflexivity. Qed.

Lemma read_total : forall d vb, exists self, init_remesher (Some (JObj d)) vb = Ok self.
Proof. intros d vb. unfold init_remesher. rewrite read_obj. cbn [rbind]. eauto. Qed.

Lemma read_value : forall d k a, In (k, a) pairs -> forall vb self, init_remesher (Some (JObj d)) vb = Ok self ->
  (vb = true -> a <> "verbose"%string) ->
  dget str_dec self (lit a) = match dget str_dec d (lit k) with Some v => Some v | None => dget str_dec default_attrs (lit a) end.
Proof.
  intros d k a I vb self E N. unfold init_remesher in E. rewrite read_obj in E.
  pose proof (fold_value d pairs default_attrs k a pairs_distinct I) as FV. revert E FV. generalize (fold_left (fun s p => given d (fst p) (snd p) s) pairs default_attrs).
  intros m E FV. cbn [rbind] in E. apply ok_inj in E. subst self.
  destruct vb; [|exact FV].
  rewrite PyLemmas.dget_dset. destruct (str_dec (lit a) (lit "verbose")) as [E|_].
  - exfalso. apply (N eq_refl). rewrite <- (string_of_list_ascii_of_string a), <- (string_of_list_ascii_of_string "verbose"). f_equal. exact E.
  - exact FV.
Qed.

Theorem options_read : forall d vb, exists self, init_remesher (Some (JObj d)) vb = Ok self /\
  forall a, In a remesh_options -> (vb = true -> a <> lit "verbose") ->
  dget str_dec self a = match dget str_dec d (json_key a) with Some v => Some v | None => dget str_dec default_attrs a end.
Proof.
  intros d vb. destruct (read_total d vb) as (self & E). exists self. split; [exact E|]. intros a I N.
  assert (H : forall k x, In (k, x) pairs -> json_key (lit x) = lit k -> lit x = a ->
     dget str_dec self a = match dget str_dec d (json_key a) with Some v => Some v | None => dget str_dec default_attrs a end).
  { intros k x P K <-. rewrite K. apply (read_value d k x P vb self E). intros V ->. exact (N V eq_refl). }
  unfold remesh_options in I. cbn [map In] in I.
  repeat (destruct I as [I|I]; [match type of I with lit ?x = _ =>
    let k := eval compute in (if String.eqb x "export_stl" then x else String.append "remesh_" x) in
    apply (H k x); [unfold pairs; cbn [In]; tauto|reflexivity|exact I] end|]). destruct I.
Qed.

Theorem verbose_read : forall d self, init_remesher (Some (JObj d)) true = Ok self -> dget str_dec self (lit "verbose") = Some (JBool true).
Proof.
  intros d self E. unfold init_remesher in E. rewrite read_obj in E. revert E. generalize (fold_left (fun s p => given d (fst p) (snd p) s) pairs default_attrs).
  intros m E. cbn [rbind] in E. apply ok_inj in E. subst self.
  rewrite PyLemmas.dget_dset. destruct (str_dec (lit "verbose") (lit "verbose")); [reflexivity|contradiction].
Qed.

Theorem not_object : forall j vb, (forall d, j <> JObj d) -> init_remesher (Some j) vb = Raise ETypeError.
Proof. intros j vb H. destruct j; try reflexivity. exfalso. exact (H _ eq_refl). Qed.

Theorem default_read : forall vb, exists self, init_remesher None vb = Ok self /\ options_of self = Some default_options /\
  dget str_dec self (lit "nss_fix_nodes") = Some (JBool true).
Proof. intros [|]; eexists; (split; [reflexivity|]); split; reflexivity. Qed.

Definition int_at (self : attrs) (a : string) : option Z := match dget str_dec self (lit a) with Some j => jint j | None => None end.
Definition num_at (self : attrs) (a : string) : option R := match dget str_dec self (lit a) with Some j => jnum j | None => None end.
Definition yes_at (self : attrs) (a : string) : bool := match dget str_dec self (lit a) with Some j => jtrue j | None => false end.

Lemma int_field : forall d vb self k a dflt z, init_remesher (Some (JObj d)) vb = Ok self -> In (k, a) pairs -> a <> "verbose"%string ->
  dget str_dec default_attrs (lit a) = Some (JInt dflt) -> int_at self a = Some z -> int_option d k dflt z.
Proof.
  intros d vb self k a dflt z E I N D H. unfold int_at in H. rewrite (read_value d k a I vb self E (fun _ => N)), D in H.
  unfold int_option. destruct (dget str_dec d (lit k)) as [[]|]; cbn [jint] in H; try discriminate; injection H as <-; reflexivity.
Qed.

Lemma num_field : forall d vb self k a dflt z, init_remesher (Some (JObj d)) vb = Ok self -> In (k, a) pairs -> a <> "verbose"%string ->
  dget str_dec default_attrs (lit a) = Some (JFloat dflt) -> num_at self a = Some z -> num_option d k dflt z.
Proof.
  intros d vb self k a dflt z E I N D H. unfold num_at in H. rewrite (read_value d k a I vb self E (fun _ => N)), D in H.
  unfold num_option. destruct (dget str_dec d (lit k)) as [[]|]; cbn [jnum] in H; try discriminate; injection H as <-; reflexivity.
Qed.

Lemma yes_field : forall d vb self k a dflt, init_remesher (Some (JObj d)) vb = Ok self -> In (k, a) pairs -> a <> "verbose"%string ->
  dget str_dec default_attrs (lit a) = Some (JBool dflt) -> yes_option d k dflt (yes_at self a).
Proof.
  intros d vb self k a dflt E I N D. unfold yes_at. rewrite (read_value d k a I vb self E (fun _ => N)), D.
  unfold yes_option. destruct (dget str_dec d (lit k)) as [[]|]; cbn [jtrue]; trivial.
Qed.

Ltac inpairs := unfold pairs; cbn [In]; tauto.

Theorem fields_read : forall d vb self o, init_remesher (Some (JObj d)) vb = Ok self -> options_of self = Some o -> read_fields d o.
Proof.
  intros d vb self o E H. unfold options_of in H.
  change (match int_at self "nsteps_min", int_at self "nsteps_max", num_at self "nsteps_hi_side_fact", num_at self "nsteps_ignore_part",
        int_at self "nsmooth_steps", num_at self "nsmooth_s", num_at self "nsmooth_k",
        int_at self "hsmooth_steps", num_at self "hsmooth_alfa", num_at self "hsmooth_beta", int_at self "nss_steps" with
  | Some a, Some b, Some c, Some d, Some e, Some f, Some g, Some h, Some i, Some j, Some k =>
      Some (Opt a b c d e f g h i j (yes_at self "rest_volume_redistr") k (yes_at self "pseudo_2d_oz"))
  | _, _, _, _, _, _, _, _, _, _, _ => None
  end = Some o) in H.
  destruct (int_at self "nsteps_min") as [a|] eqn:Ea; [|discriminate].
  destruct (int_at self "nsteps_max") as [b|] eqn:Eb; [|discriminate].
  destruct (num_at self "nsteps_hi_side_fact") as [c|] eqn:Ec; [|discriminate].
  destruct (num_at self "nsteps_ignore_part") as [x|] eqn:Ex; [|discriminate].
  destruct (int_at self "nsmooth_steps") as [e|] eqn:Ee; [|discriminate].
  destruct (num_at self "nsmooth_s") as [f|] eqn:Ef; [|discriminate].
  destruct (num_at self "nsmooth_k") as [g|] eqn:Eg; [|discriminate].
  destruct (int_at self "hsmooth_steps") as [h|] eqn:Eh; [|discriminate].
  destruct (num_at self "hsmooth_alfa") as [i|] eqn:Ei; [|discriminate].
  destruct (num_at self "hsmooth_beta") as [j|] eqn:Ej; [|discriminate].
  destruct (int_at self "nss_steps") as [k|] eqn:Ek; [|discriminate].
  injection H as <-. unfold read_fields.
  cbn [nsteps_min nsteps_max nsteps_hi_side_fact nsteps_ignore_part nsmooth_steps nsmooth_s nsmooth_k hsmooth_steps hsmooth_alfa hsmooth_beta rest_volume_redistr nss_steps pseudo_2d_oz].
  split; [apply (int_field d vb self _ "nsteps_min" 0 a E); [inpairs|discriminate|reflexivity|exact Ea]|].
  split; [apply (int_field d vb self _ "nsteps_max" 10 b E); [inpairs|discriminate|reflexivity|exact Eb]|].
  split; [apply (num_field d vb self _ "nsteps_hi_side_fact" (1 / 10) c E); [inpairs|discriminate|reflexivity|exact Ec]|].
  split; [apply (num_field d vb self _ "nsteps_ignore_part" (5 / 100) x E); [inpairs|discriminate|reflexivity|exact Ex]|].
  split; [apply (int_field d vb self _ "nsmooth_steps" 0 e E); [inpairs|discriminate|reflexivity|exact Ee]|].
  split; [apply (num_field d vb self _ "nsmooth_s" 10 f E); [inpairs|discriminate|reflexivity|exact Ef]|].
  split; [apply (num_field d vb self _ "nsmooth_k" (15 / 100) g E); [inpairs|discriminate|reflexivity|exact Eg]|].
  split; [apply (int_field d vb self _ "hsmooth_steps" 0 h E); [inpairs|discriminate|reflexivity|exact Eh]|].
  split; [apply (num_field d vb self _ "hsmooth_alfa" (2 / 10) i E); [inpairs|discriminate|reflexivity|exact Ei]|].
  split; [apply (num_field d vb self _ "hsmooth_beta" (1 / 10) j E); [inpairs|discriminate|reflexivity|exact Ej]|].
  split; [apply (yes_field d vb self _ "rest_volume_redistr" true E); [inpairs|discriminate|reflexivity]|].
  split; [apply (int_field d vb self _ "nss_steps" 0 k E); [inpairs|discriminate|reflexivity|exact Ek]|].
  apply (yes_field d vb self _ "pseudo_2d_oz" false E); [inpairs|discriminate|reflexivity].
Qed.

Lemma int_there : forall d vb self k a dflt, init_remesher (Some (JObj d)) vb = Ok self -> In (k, a) pairs -> a <> "verbose"%string ->
  dget str_dec default_attrs (lit a) = Some (JInt dflt) -> is_int (dget str_dec d (lit k)) -> exists z, int_at self a = Some z.
Proof.
  intros d vb self k a dflt E I N D H. unfold int_at. rewrite (read_value d k a I vb self E (fun _ => N)), D.
  destruct (dget str_dec d (lit k)) as [[]|]; try destruct H; cbn [jint]; eauto.
Qed.
Lemma num_there : forall d vb self k a dflt, init_remesher (Some (JObj d)) vb = Ok self -> In (k, a) pairs -> a <> "verbose"%string ->
  dget str_dec default_attrs (lit a) = Some (JFloat dflt) -> is_num (dget str_dec d (lit k)) -> exists z, num_at self a = Some z.
Proof.
  intros d vb self k a dflt E I N D H. unfold num_at. rewrite (read_value d k a I vb self E (fun _ => N)), D.
  destruct (dget str_dec d (lit k)) as [[]|]; try destruct H; cbn [jnum]; eauto.
Qed.

Theorem fields_there : forall d vb self, init_remesher (Some (JObj d)) vb = Ok self -> good_numbers d -> exists o, options_of self = Some o.
Proof.
  intros d vb self E [A B].
  apply Forall_cons_iff in A as [A1 A]. apply Forall_cons_iff in A as [A2 A]. apply Forall_cons_iff in A as [A3 A]. apply Forall_cons_iff in A as [A4 A]. apply Forall_cons_iff in A as [A5 _].
  apply Forall_cons_iff in B as [B1 B]. apply Forall_cons_iff in B as [B2 B]. apply Forall_cons_iff in B as [B3 B]. apply Forall_cons_iff in B as [B4 B]. apply Forall_cons_iff in B as [B5 B]. apply Forall_cons_iff in B as [B6 _].
  destruct (int_there d vb self "remesh_nsteps_min" "nsteps_min" 0 E) as (a & Ea); [|discriminate|reflexivity|exact A1|]; [inpairs|].
  destruct (int_there d vb self "remesh_nsteps_max" "nsteps_max" 10 E) as (b & Eb); [|discriminate|reflexivity|exact A2|]; [inpairs|].
  destruct (int_there d vb self "remesh_nsmooth_steps" "nsmooth_steps" 0 E) as (e & Ee); [|discriminate|reflexivity|exact A3|]; [inpairs|].
  destruct (int_there d vb self "remesh_hsmooth_steps" "hsmooth_steps" 0 E) as (h & Eh); [|discriminate|reflexivity|exact A4|]; [inpairs|].
  destruct (int_there d vb self "remesh_nss_steps" "nss_steps" 0 E) as (k & Ek); [|discriminate|reflexivity|exact A5|]; [inpairs|].
  destruct (num_there d vb self "remesh_nsteps_hi_side_fact" "nsteps_hi_side_fact" (1 / 10) E) as (c & Ec); [|discriminate|reflexivity|exact B1|]; [inpairs|].
  destruct (num_there d vb self "remesh_nsteps_ignore_part" "nsteps_ignore_part" (5 / 100) E) as (x & Ex); [|discriminate|reflexivity|exact B2|]; [inpairs|].
  destruct (num_there d vb self "remesh_nsmooth_s" "nsmooth_s" 10 E) as (f & Ef); [|discriminate|reflexivity|exact B3|]; [inpairs|].
  destruct (num_there d vb self "remesh_nsmooth_k" "nsmooth_k" (15 / 100) E) as (g & Eg); [|discriminate|reflexivity|exact B4|]; [inpairs|].
  destruct (num_there d vb self "remesh_hsmooth_alfa" "hsmooth_alfa" (2 / 10) E) as (i & Ei); [|discriminate|reflexivity|exact B5|]; [inpairs|].
  destruct (num_there d vb self "remesh_hsmooth_beta" "hsmooth_beta" (1 / 10) E) as (j & Ej); [|discriminate|reflexivity|exact B6|]; [inpairs|].
  exists (Opt a b c x e f g h i j (yes_at self "rest_volume_redistr") k (yes_at self "pseudo_2d_oz")). unfold options_of.
  change (match int_at self "nsteps_min", int_at self "nsteps_max", num_at self "nsteps_hi_side_fact", num_at self "nsteps_ignore_part",
        int_at self "nsmooth_steps", num_at self "nsmooth_s", num_at self "nsmooth_k",
        int_at self "hsmooth_steps", num_at self "hsmooth_alfa", num_at self "hsmooth_beta", int_at self "nss_steps" with
  | Some a, Some b, Some c, Some d, Some e, Some f, Some g, Some h, Some i, Some j, Some k =>
      Some (Opt a b c d e f g h i j (yes_at self "rest_volume_redistr") k (yes_at self "pseudo_2d_oz"))
  | _, _, _, _, _, _, _, _, _, _, _ => None
  end = Some (Opt a b c x e f g h i j (yes_at self "rest_volume_redistr") k (yes_at self "pseudo_2d_oz"))).
  rewrite Ea, Eb, Ec, Ex, Ee, Ef, Eg, Eh, Ei, Ej, Ek. reflexivity.
Qed.

(** The program with these options. *)
Theorem remesh_options_used : forall {F : FloatOps} real near d vb text h, good_numbers d ->
  exists fixn o, read_fields d o /\ yes_option d "remesh_nss_fix_nodes" true fixn /\
    remesh_program real near (Some (JObj d)) vb text h = remesh_file real near fixn o text h.
Proof.
  intros F real near d vb text h G. destruct (read_total d vb) as (self & E). destruct (fields_there d vb self E G) as (o & Eo).
  exists (yes_at self "nss_fix_nodes"), o. split; [exact (fields_read d vb self o E Eo)|]. split.
  - apply (yes_field d vb self _ "nss_fix_nodes" true E); [inpairs|discriminate|reflexivity].
  - unfold remesh_program. rewrite E, bind_lift_ok, Eo. reflexivity.
Qed.

Theorem remesh_options_default : forall {F : FloatOps} real near vb text h,
  remesh_program real near None vb text h = remesh_file real near true default_options text h.
Proof. intros F real near vb text h. unfold remesh_program. destruct vb; reflexivity. Qed.

Theorem options_printed : forall show self a v, In a remesh_options -> dget str_dec self a = Some v ->
  exists pad, In (lit "    " ++ json_key a ++ pad ++ lit " = " ++ show v) (print_options show self) /\ forall c, In c pad -> c = " "%char.
Proof.
  intros show self a v I E.
  assert (H : forall x k pad, lit x = a -> json_key (lit x) = lit k ->
    In (lit "    " ++ lit k ++ lit pad ++ lit " = " ++ match dget str_dec self (lit x) with Some v => show v | None => [] end) (print_options show self) ->
    (forall c, In c (lit pad) -> c = " "%char) ->
    exists pad, In (lit "    " ++ json_key a ++ pad ++ lit " = " ++ show v) (print_options show self) /\ forall c, In c pad -> c = " "%char).
  { intros x k pad <- K P S. exists (lit pad). rewrite K. rewrite E in P. split; [exact P|exact S]. }
  unfold remesh_options in I. cbn [map In] in I.
  repeat (destruct I as [I|I]; [match type of I with lit ?x = _ =>
    let k := eval compute in (if String.eqb x "export_stl" then x else String.append "remesh_" x) in
    let n := eval compute in (26 - String.length k) in
    let pad := eval compute in (String.substring 0 n "                              ") in
    apply (H x k pad I); [reflexivity| |intros c Ic; repeat (destruct Ic as [<-|Ic]; [reflexivity|]); destruct Ic];
    unfold print_options; cbn [map In fst snd]; repeat (try (left; reflexivity); right) end|]). destruct I.
Qed.
