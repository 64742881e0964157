(** Concrete files for the example of the program ansys_to_crystal.py. *)

From Coq Require Import ZArith Reals Lra Bool List Lia String Ascii.
From Verif Require Import Py PyLemmas TextLemmas Heap GridSpec FileSpec GridModel GridIO StoreSpec Samples SamplesStore Geom Convert ConvertSpec
  Ansys AnsysSpec AnsysText AnsysProofs AnsysMore AnsysCases AnsysMain AnsysMainSpec AnsysMainText AnsysMainProofs.
Import ListNotations.
Open Scope list_scope.
Open Scope nat_scope.

(** Whole numbers are read and written. *)
Definition whole_fl (s : str) : res R := match py_int s with Ok z => Ok (IZR z) | Raise _ => Raise EValueError end.
Definition whole_fmt (x : R) : str := Z_str (Int_part x).
Definition whole_part (x : R) : R := IZR (Int_part x).

Lemma Z_str_chars : forall z c, In c (Z_str z) -> is_digit c = true \/ c = "-"%char.
Proof.
  assert (D : forall n c, In c (N_str n) -> is_digit c = true).
  { intros n c I. pose proof (N_str_digits n) as K. rewrite forallb_forall in K. auto. }
  intros z c I. unfold Z_str in I. destruct z; [left; eapply D; eauto|left; eapply D; eauto|]. destruct I as [<-|I]; [auto|left; eapply D; eauto].
Qed.

Lemma whole_number : forall x, number_text (whole_fmt x).
Proof.
  intros x. unfold whole_fmt. generalize (Int_part x). intros z.
  destruct (Z_faithful z) as (_ & Hne & Hsp).
  split; [exact Hne|]. split; [exact Hsp|].
  assert (K : forall k ch, In ch k -> is_digit ch = false -> ch <> "-"%char -> ~ occurs k (Z_str z)).
  { intros k ch I D N (a & b & E). assert (J : In ch (Z_str z)) by (rewrite E; apply in_app_iff; right; apply in_app_iff; left; auto).
    apply Z_str_chars in J as [J|J]; congruence. }
  repeat split; eapply K with (ch := "E"%char); try reflexivity; try discriminate; cbn; auto 12.
Qed.

Lemma whole_read : forall x, whole_fl (whole_fmt x) = Ok (whole_part x).
Proof.
  intros x. unfold whole_fl, whole_fmt, whole_part. destruct (Z_faithful (Int_part x)) as (E & _). cbn in E.
  destruct (py_int (Z_str (Int_part x))); [injection E as ->; reflexivity|discriminate].
Qed.

Lemma whole_word : forall x, word (whole_fmt x).
Proof. intros x. destruct (whole_number x) as (A & B & _). split; auto. Qed.

Lemma whole_prs : forall x, @prs ZOps (whole_fmt x) = Some (Int_part x).
Proof. intros x. apply Z_faithful. Qed.

(** Three files with the zones tail and wing. *)
Definition flow_vars : str := ln "VARIABLES='X','Y','Z','Density','Static temperature','SF1','SF2','SF3','Classical heat flux'".
Definition flow_raws : list str := [tx "'X'"; tx "'Y'"; tx "'Z'"; tx "'Density'"; tx "'Static temperature'"; tx "'SF1'"; tx "'SF2'"; tx "'SF3'"; ln "'Classical heat flux'"].
Definition drop_vars : str := ln "VARIABLES='X','Y','Z','Collection efficiency-Droplet'".
Definition drop_raws : list str := [tx "'X'"; tx "'Y'"; tx "'Z'"; ln "'Collection efficiency-Droplet'"].
Definition adia_vars : str := ln "VARIABLES='X','Y','Z','Static temperature'".
Definition adia_raws : list str := [tx "'X'"; tx "'Y'"; tx "'Z'"; ln "'Static temperature'"].

Definition flow_tail : block := Block (lit "tail") tail_head [ln "5 0 0 1 300 0 0 0 0"; ln "6 0 0 1 301 0 0 0 0"] [].
Definition flow_wing : block := Block (lit "wing") wing_head [ln "0 0 0 1 271 1 2 3 50"; ln "1 0 0 1 272 4 5 6 60"; ln "0 1 0 1 273 7 8 9 70"] [ln "1 2 3 3"].
Definition drop_tail : block := Block (lit "tail") tail_head [ln "5 0 0 0"; ln "6 0 0 0"] [].
Definition drop_wing : block := Block (lit "wing") wing_head [ln "0 0 0 10"; ln "1 0 0 20"; ln "0 1 0 30"] [ln "1 2 3 3"].
Definition adia_tail : block := Block (lit "tail") tail_head [ln "5 0 0 1"; ln "6 0 0 1"] [].
Definition adia_wing : block := Block (lit "wing") wing_head [ln "0 0 0 281"; ln "1 0 0 282"; ln "0 1 0 283"] [ln "1 2 3 3"].

Definition flow_src : source := Source [title] flow_vars flow_raws [flow_tail; flow_wing].
Definition drop_src : source := Source [title] drop_vars drop_raws [drop_tail; drop_wing].
Definition adia_src : source := Source [title] adia_vars adia_raws [adia_tail; adia_wing].

Definition text_of_src (s : source) : str := List.concat (s_titles s ++ s_vars s :: flat_map block_lines (s_blocks s)).

Ltac vline := split; [occ|]; split; [no_occ|]; exists (lit "VARIABLES"), []; split; [vm_compute; reflexivity|]; split; [discriminate|];
  split; [apply no_char; reflexivity|]; split; [|exact I];
  repeat (apply Forall_cons; [split; apply no_char; reflexivity|]); apply Forall_nil.

Ltac rows_words := repeat (apply Forall_cons; [repeat (apply Forall_cons; [unfold words; vm_compute; lia|]); apply Forall_nil|]); apply Forall_nil.

Lemma flow_text : source_text (text_of_src flow_src) flow_src.
Proof.
  split; [vm_compute; reflexivity|]. split; [apply Forall_cons; [occ|apply Forall_nil]|]. split; [vline|].
  split; [apply Forall_cons; [apply tail_good; auto; plains|apply Forall_cons; [apply wing_good; auto; plains|apply Forall_nil]]|]. rows_words.
Qed.
Lemma drop_text : source_text (text_of_src drop_src) drop_src.
Proof.
  split; [vm_compute; reflexivity|]. split; [apply Forall_cons; [occ|apply Forall_nil]|]. split; [vline|].
  split; [apply Forall_cons; [apply tail_good; auto; plains|apply Forall_cons; [apply wing_good; auto; plains|apply Forall_nil]]|]. rows_words.
Qed.
Lemma adia_text : source_text (text_of_src adia_src) adia_src.
Proof.
  split; [vm_compute; reflexivity|]. split; [apply Forall_cons; [occ|apply Forall_nil]|]. split; [vline|].
  split; [apply Forall_cons; [apply tail_good; auto; plains|apply Forall_cons; [apply wing_good; auto; plains|apply Forall_nil]]|]. rows_words.
Qed.

Lemma columns_by : forall names s cols, places 0 (snd (variables_names_and_mask (map (remove_char dquote) (s_raws s)) names)) = cols ->
  filter_with_mask (fst (variables_names_and_mask (map (remove_char dquote) (s_raws s)) names)) (snd (variables_names_and_mask (map (remove_char dquote) (s_raws s)) names)) = names ->
  has_columns names s cols.
Proof. intros names s cols <- E. split; [apply mask_columns|]. rewrite <- E at 3. apply names_ok. Qed.

Lemma flow_columns : has_columns fensap_variables_to_extract flow_src [0; 1; 2; 4; 5; 6; 7; 8].
Proof. apply columns_by; vm_compute; reflexivity. Qed.
Lemma drop_columns : has_columns drop3d_variables_to_extract drop_src [0; 1; 2; 3].
Proof. apply columns_by; vm_compute; reflexivity. Qed.
Lemma adia_columns : has_columns adiabatic_variables_to_extract adia_src [0; 1; 2; 3].
Proof. apply columns_by; vm_compute; reflexivity. Qed.

Lemma wing_kept : forall s b1 b2, s_blocks s = [b1; b2] -> b_name b1 = lit "tail" -> b_name b2 = lit "wing" -> kept [lit "wing"] s [b2].
Proof.
  intros s b1 b2 E E1 E2. unfold kept. rewrite E. apply sub_drop; [rewrite E1; intros [H|[]]; discriminate|]. apply sub_keep; [rewrite E2; left; reflexivity|]. apply sub_nil.
Qed.

Definition wing_nodes : list cnode :=
  [CNode (V3 0 0 0) (CData 5 10 1 2 3 22); CNode (V3 1 0 0) (CData 6 20 4 5 6 24); CNode (V3 0 1 0) (CData 7 30 7 8 9 26)].

Lemma whole_IZR : forall z, whole_part (IZR z) = IZR z.
Proof. intros z. unfold whole_part, Int_part. assert (E : up (IZR z) = (z + 1)%Z); [|rewrite E; f_equal; lia]. symmetry. apply tech_up; rewrite plus_IZR; lra. Qed.

Ltac num := vm_compute; reflexivity.
Lemma row_case : forall f d a x y z ts sx sy sz q beta st vx_ vy_ vz_ vts vsx vsy vsz vq vb vst htc rf,
  pick [0; 1; 2; 4; 5; 6; 7; 8] (split_ws f) = [x; y; z; ts; sx; sy; sz; q] -> pick [0; 1; 2; 3] (split_ws d) = [x; y; z; beta] -> pick [0; 1; 2; 3] (split_ws a) = [x; y; z; st] ->
  py_int x = Ok vx_ -> py_int y = Ok vy_ -> py_int z = Ok vz_ -> py_int ts = Ok vts -> py_int sx = Ok vsx -> py_int sy = Ok vsy -> py_int sz = Ok vsz -> py_int q = Ok vq ->
  py_int beta = Ok vb -> py_int st = Ok vst -> vts <> vst -> (2 * vst = 2 * 270 + rf)%Z -> (htc * (vts - vst) = - vq)%Z ->
  node_of_rows whole_fl whole_part 270 1 1 [0; 1; 2; 4; 5; 6; 7; 8] [0; 1; 2; 3] [0; 1; 2; 3] f d a
    (CNode (V3 (IZR vx_) (IZR vy_) (IZR vz_)) (CData (IZR htc) (IZR vb) (IZR vsx) (IZR vsy) (IZR vsz) (IZR rf))).
Proof.
  intros f d a x y z ts sx sy sz q beta st vx_ vy_ vz_ vts vsx vsy vsz vq vb vst htc rf Pf Pd Pa Ex Ey Ez Ets Esx Esy Esz Eq Eb Est N Hr Hh.
  exists x, y, z, ts, sx, sy, sz, q, x, y, z, beta, x, y, z, st, (IZR vts), (IZR vst), (IZR vq), (IZR htc), (IZR rf).
  cbn [cn_point cn_data vx vy vz c_htc c_beta c_taux c_tauy c_tauz c_rf]. unfold coordinate, whole_fl.
  rewrite Ex, Ey, Ez, Ets, Esx, Esy, Esz, Eq, Eb, Est, !whole_IZR.
  repeat (split; [auto; fail|]). split; [intros E; apply eq_IZR in E; auto|].
  split; [|split; [|auto]].
  - apply (f_equal IZR) in Hr. rewrite plus_IZR, !mult_IZR in Hr. lra.
  - apply (f_equal IZR) in Hh. rewrite mult_IZR, minus_IZR, opp_IZR in Hh. exact Hh.
Qed.

Lemma wing_readable : readable3 whole_fl whole_part 270 1 1 [0; 1; 2; 4; 5; 6; 7; 8] [0; 1; 2; 3] [0; 1; 2; 3] flow_wing drop_wing adia_wing wing_nodes.
Proof.
  split; [split; reflexivity|]. split; [split; reflexivity|]. split.
  - cbn [b_nodes flow_wing drop_wing adia_wing]. unfold wing_nodes.
    apply zip4_cons; [eapply row_case; try (vm_compute; reflexivity); lia|].
    apply zip4_cons; [eapply row_case; try (vm_compute; reflexivity); lia|].
    apply zip4_cons; [eapply row_case; try (vm_compute; reflexivity); lia|]. apply zip4_nil.
  - apply Forall_cons; [|apply Forall_nil]. exists (0, 1, 2, 2). split; [vm_compute; reflexivity|].
    vm_compute (split_ws _). cbn [ConvertSpec.corners].
    repeat (apply Forall2_cons; [split; [vm_compute; reflexivity|cbn; lia]|]). apply Forall2_nil.
Qed.
