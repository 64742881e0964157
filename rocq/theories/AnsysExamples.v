(** Facts used in PropertiesAnsys.v: corollaries and concrete cases. *)

From Coq Require Import ZArith Reals Lra Lia List String Ascii Sorted.
From Verif Require Import Py PyLemmas TextLemmas Heap GridSpec FileSpec GridModel GridIO LoadProps Geom Convert ConvertSpec Ansys AnsysSpec AnsysText AnsysProofs
  AnsysMore AnsysExportSpec AnsysExport AnsysCases AnsysPipe.
Import ListNotations.
Open Scope list_scope.
Open Scope nat_scope.

Lemma mask_spec : forall A (a : list A) (m : list bool),
  exists cols, StronglySorted lt cols /\ (forall i, In i cols <-> nth_error m i = Some true) /\ filter_with_mask a m = pick cols a.
Proof.
  intros A a m. exists (places 0 m). split; [apply places_sorted|]. split; [|apply mask_pick].
  intros i. rewrite places_In, Nat.sub_0_r. split; [tauto|]. intros H. split; [lia|auto].
Qed.

Lemma requested_kept : forall snames titles vline raws bs i name t,
  Forall head_title titles -> variables_line vline raws -> Forall good_block bs ->
  In name snames -> ~ In dquote name -> ~ In dquote t ->
  nth_error raws i = Some (quoted name ++ t) -> t = [] \/ List.length name <> 1 ->
  exists cols names, In i cols /\
    filter_variables snames None 0 0 (titles ++ vline :: flat_map block_lines bs) =
    Ok (titles ++ written_variables names :: flat_map block_lines (map (with_rows (fun l => written_row (pick cols (split_ws l)))) bs)).
Proof.
  intros snames titles vline raws bs i name t Ht Hv Hb In_ Qn Qt E L.
  destruct (filter_variables_ok snames titles vline raws bs Ht Hv Hb) as (cols & names & C & _ & R).
  exists cols, names. split; auto. eapply column_kept; eauto.
Qed.

Lemma flow_tail :
  Forall good_piece flow_file /\ selected [lit "tail"] flow_file [Head title; Head vars_tight; Data tail] /\
  filter_zones [lit "tail"] 0 0 (file_of flow_file) = Ok [title; vars_tight; tail_head; ln "5 0 0 300"; ln "6 0 0 301"].
Proof.
  split; [exact flow_good|]. split; [|vm_compute; reflexivity].
  apply sel_head. apply sel_head. apply sel_drop; [intros [H|[]]; discriminate|]. apply sel_keep; [left; reflexivity|]. apply sel_nil.
Qed.

Lemma flow_two_columns :
  variables_line vars_tight [tx "'X'"; tx "'Y'"; tx "'Z'"; ln "'Static temperature'"] /\ Forall good_block [wing; tail] /\
  filter_variables [lit "Y"; lit "temperature"] None 0 0 ([title] ++ vars_tight :: flat_map block_lines [wing; tail]) =
  Ok [title; ln "VARIABLES='Y', 'temperature'"; wing_head; ln "0 271"; ln "0 272"; ln "1 273"; ln "1 2 3 3"; tail_head; ln "0 300"; ln "0 301"].
Proof.
  split; [exact vars_tight_ok|]. split; [apply Forall_cons; [exact wing_ok|apply Forall_cons; [exact tail_ok|apply Forall_nil]]|]. vm_compute. reflexivity.
Qed.

Lemma in_str : forall (x : str) l, existsb (str_eqb x) l = true -> In x l.
Proof. intros x l H. apply existsb_exists in H. destruct H as (y & I & E). apply str_eqb_eq in E. subst. auto. Qed.
Lemma not_in_str : forall (x : str) l, existsb (str_eqb x) l = false -> ~ In x l.
Proof. intros x l H I. assert (existsb (str_eqb x) l = true) by (apply existsb_exists; exists x; split; auto; apply str_eqb_refl). congruence. Qed.
Ltac ins := apply in_str; vm_compute; reflexivity.

Lemma second_run_loses : exists snames ls out out',
  filter_variables snames None 0 0 ls = Ok out /\ filter_variables snames None 0 0 out = Ok out' /\
  In (ln "VARIABLES='X', 'Y', 'Z', 'Static temperature'") out /\
  In (lit "Y") snames /\ In (lit "Z") snames /\ In (ln "VARIABLES='X', 'Static temperature'") out'.
Proof.
  exists xyz, (title :: vars_tight :: block_lines wing). eexists. eexists. split; [exact tight_keeps|]. split; [exact spaced_loses|].
  split; [ins|]. split; [ins|]. split; [ins|]. ins.
Qed.

Lemma longer_name_kept : exists snames ls out,
  filter_variables snames None 0 0 ls = Ok out /\
  In (ln "VARIABLES='X','Y','Z','Static temperature','Gradient of Static temperature'") ls /\
  ~ In (lit "Gradient of Static temperature") snames /\
  In (ln "VARIABLES='X', 'Y', 'Z', 'Static temperature', 'Static temperature'") out.
Proof.
  exists xyz. eexists. eexists. split; [exact similar_kept|]. split; [ins|]. split; [apply not_in_str; vm_compute; reflexivity|]. ins.
Qed.

Lemma other_order : exists fs ds al out,
  merge_files 0 0 fs ds al = Ok out /\
  In (ln "0 0 0 .01") ds /\ In (ln "1 0 0 .02") ds /\
  In (ln "0 0 0 50 .02 .1 .2 .3 271 281") out /\ In (header_of merged_names) out.
Proof. eexists. eexists. eexists. eexists. split; [exact merged_wrong|]. split; [ins|]. split; [ins|]. split; [ins|]. ins. Qed.

Lemma column_order : exists fs flt ds al out,
  In (ln "VARIABLES='X','Y','Z','Classical heat flux','SF1','SF2','SF3','Static temperature'") fs /\ In (ln "5 0 0 50 .1 .2 .3 271") fs /\
  filter_variables fensap_names None 0 0 fs = Ok flt /\ merge_files 0 0 flt ds al = Ok out /\
  In (header_of merged_names) out /\ In (ln "5 0 0 271 .01 .1 .2 .3 50 281") out.
Proof.
  exists swapped_rows. eexists. eexists. eexists. eexists. split; [ins|]. split; [ins|]. split; [exact swapped_filtered|]. split; [exact swapped_merged|]. split; [ins|]. ins.
Qed.

Lemma merge_case :
  Forall head_title [title] /\ occurs (lit "VARIABLES") vars_spaced /\ ~ occurs (lit "TITLE") vars_spaced /\ Forall good_block [fensap_wing] /\
  Forall2 same_size [fensap_wing] [drop_wing] /\ Forall2 same_size [fensap_wing] [adia_wing] /\
  merge_files 0 0 (title :: vars_spaced :: block_lines fensap_wing) (title :: vars_spaced :: block_lines drop_wing) (title :: vars_spaced :: block_lines adia_wing) =
  Ok (title :: header_of merged_names :: wing_head :: [ln "0 0 0 50 .01 .1 .2 .3 271 281"; ln "1 0 0 60 .02 .4 .5 .6 272 282"; ln "0 1 0 70 .03 .7 .8 .9 273 283"; ln "1 2 3 3"]).
Proof.
  split; [constructor; [occ|constructor]|]. split; [occ|]. split; [no_occ|]. split; [constructor; [exact fensap_good|constructor]|].
  split; [constructor; [split; reflexivity|constructor]|]. split; [constructor; [split; reflexivity|constructor]|]. exact merged_example.
Qed.

(** Numbers are read as the lengths of their texts in these examples. *)
Definition merged_wing : block := Block (lit "wing") wing_head [ln "0 0 0 50 .01 .1 .2 .3 271 2810"; ln "1 0 0 60 .02 .4 .5 .6 272 2820"; ln "0 1 0 70 .03 .7 .8 .9 273 2830"] [ln "1 2 3 3"].

Lemma htc_case : Forall (fun b => Forall (htc_readable (fun s => Ok (INR (List.length s)))) (b_nodes b)) [merged_wing] /\ Forall good_block [merged_wing].
Proof.
  split.
  - constructor; [|constructor]. cbn [merged_wing b_nodes].
    repeat (apply Forall_cons; [do 13 eexists; split; [vm_compute; reflexivity|]; split; [reflexivity|]; split; [reflexivity|]; split; [reflexivity|]; cbn [List.length]; apply not_INR; discriminate|]).
    apply Forall_nil.
  - constructor; [|constructor]. apply wing_good; auto; plains.
Qed.

Definition nodes_wing : block := Block (lit "wing") wing_head [ln "0 0 0 50 .01 .1 .2 .3 9"; ln "1 0 0 60 .02 .4 .5 .6 8"; ln "0 1 0 70 .03 .7 .8 .9 7"] [ln "1 2 3 3"].

Lemma readable_case : Forall good_piece [Head title; Data nodes_wing] /\ Forall (readable (fun s => Ok (INR (List.length s)))) (blocks_of [Head title; Data nodes_wing]).
Proof.
  split.
  - constructor; [left; occ|]. constructor; [|constructor]. apply wing_good; auto; plains.
  - cbn [blocks_of flat_map app]. constructor; [|constructor]. split.
    + cbn [nodes_wing b_nodes].
      repeat (apply Forall_cons; [
        exists (CNode (V3 (INR 1) (INR 1) (INR 1)) (CData (INR 2) (INR 3) (INR 2) (INR 2) (INR 2) (INR 1)));
        do 9 eexists; split; [vm_compute; reflexivity|]; repeat split; try (left; reflexivity); reflexivity|]).
      apply Forall_nil.
    + apply Forall_cons; [|apply Forall_nil]. exists (0, 1, 2, 2). split; [reflexivity|].
      change (split_ws (ln "1 2 3 3")) with [nat_str 1; nat_str 2; nat_str 3; nat_str 3]. cbn [ConvertSpec.corners List.length nodes_wing b_nodes].
      repeat (constructor; [split; [reflexivity|lia]|]). constructor.
Qed.

Lemma nodes_case : Forall good_piece [Head title; Data nodes_wing] /\ Forall (readable (fun s => Ok (INR (List.length s)))) (blocks_of [Head title; Data nodes_wing]) /\
  (forall b x, In b (blocks_of [Head title; Data nodes_wing]) -> In x (b_name b) -> x <> eqsign /\ x <> nl /\ x <> cr).
Proof.
  split; [apply readable_case|]. split; [apply readable_case|].
  intros b x [<-|[]] I. repeat split; intros ->; cbn in I; repeat destruct I as [I|I]; try discriminate; contradiction.
Qed.

Lemma nodes_to_grid : forall {F : FloatOps} fl fm rd rv ps merge h h' zs,
  (forall x, word (fm x)) -> (forall x, prs (fm x) = Some (rd x)) ->
  Forall good_piece ps -> Forall (readable fl) (blocks_of ps) ->
  (forall b x, In b (blocks_of ps) -> In x (b_name b) -> x <> eqsign /\ x <> nl /\ x <> cr) ->
  load_nodes_data fl rv 0 0 [] (file_of ps) = Ok zs ->
  load merge (List.concat (export fm zs)) h = (Ok tt, h') ->
  Forall2 (loaded_zone fl rv) (blocks_of ps) zs /\
  exists zrs, Forall2 (exported rd) zs zrs /\ holds_zones zrs h' /\ zones_ok h'.
Proof.
  intros F fl fm rd rv ps merge h h' zs Hw Hp G W Hn E L.
  destruct (nodes_to_faces fl fm rd rv ps Hw Hp G W Hn) as (zs' & zrs & E' & Lz & X & Ff).
  assert (zs' = zs) by congruence. subst zs'. split; auto. exists zrs. split; auto.
  destruct (load_contents_main merge _ h h' _ L Ff) as (Hz & Zo & _).
  assert (Q : forall l : list zone_rec, zones_of (map EZone l) = l) by (clear; induction l; cbn; [auto|f_equal; auto]).
  rewrite Q in Hz. auto.
Qed.
