(** A concrete grid for the examples beside the theorems about store. *)

From Coq Require Import ZArith NArith Ascii String Bool Lia List Permutation.
From Verif Require Import Py PyLemmas Heap HeapLemmas GridModel GridSpec GridIO FileSpec StoreSpec TextLemmas
  ZamProofs LoadMain LoadProps Samples SamplesIO.
Import ListNotations.
Open Scope list_scope.
Open Scope nat_scope.

Lemma numbered_of : forall {F : FloatOps} h, numbered_in_order h -> numbered h.
Proof.
  intros F h (H1 & H2 & H3).
  assert (G : forall (glo : nat -> Z) l, (forall i x, nth_error l i = Some x -> glo x = Z.of_nat i) ->
    map glo l = map Z.of_nat (seq 0 (length l))).
  { intros glo l H. apply nth_error_ext'. intros i. rewrite !nth_error_map.
    destruct (nth_error l i) as [x|] eqn:E.
    - assert (i < length l) by (apply nth_error_Some; congruence).
      rewrite (nth_error_nth' _ 0) by (rewrite seq_length; auto). rewrite seq_nth by auto. cbn. rewrite (H i x E). auto.
    - apply nth_error_None in E. replace (nth_error (seq 0 (length l)) i) with (@None nat); auto.
      symmetry. apply nth_error_None. rewrite seq_length. auto. }
  unfold numbered. rewrite (G _ _ H1), (G _ _ H2), (G _ _ H3). split; [|split]; apply Permutation_refl.
Qed.

Lemma py_int_Z_str : forall z, py_int (Z_str z) = Ok z.
Proof.
  intros [|p|p]; [reflexivity| |].
  - pose proof (py_int_nat_str (Pos.to_nat p)) as H. rewrite <- Z_str_nat, positive_nat_Z in H. exact H.
  - cbn [Z_str]. unfold py_int.
    assert (E : strip ("-"%char :: N_str (N.pos p)) = "-"%char :: N_str (N.pos p)).
    { pose proof (strip_word [] ("-"%char :: N_str (N.pos p)) []) as K. rewrite app_nil_r in K. cbn [app] in K.
      apply K; auto; [discriminate|]. apply forallb_forall. intros c [<-|Hc]; [reflexivity|].
      pose proof (N_str_digits (N.pos p)) as D. rewrite forallb_forall in D. rewrite is_digit_not_space; auto. }
    rewrite E. rewrite Ascii.eqb_refl, all_digits_N_str, N_str_val. reflexivity.
Qed.

Lemma Z_faithful : @faithful_numbers ZOps.
Proof.
  intros v. cbn [prs fmt ZOps]. rewrite py_int_Z_str. split; [auto|].
  assert (D : forall p, (forall c, In c (N_str p) -> is_space c = false) /\ N_str p <> []).
  { intros p. split; [|apply N_str_nonempty]. intros c Hc. pose proof (N_str_digits p) as D.
    rewrite forallb_forall in D. apply is_digit_not_space. auto. }
  destruct v as [|p|p]; cbn [Z_str].
  - split; apply (D 0%N).
  - split; apply (D (N.pos p)).
  - split; [discriminate|]. intros c [<-|Hc]; [reflexivity|]. apply (D (N.pos p)). auto.
Qed.

(** The grid of the file [two_zones]. *)
Definition plate : @heap ZOps := snd (load true two_zones empty_heap).

Lemma plate_run : load true two_zones empty_heap = (Ok tt, plate).
Proof.
  assert (E : fst (load true two_zones empty_heap) = Ok tt) by (vm_compute; reflexivity).
  unfold plate. exact (ok_pair (load true two_zones empty_heap) E).
Qed.

Lemma loaded_good : forall {F : FloatOps} text h h' evs, load true text h = (Ok tt, h') ->
  file_form [] (file_lines text) evs -> no_degenerate (zones_of evs) ->
  grid_ok h' /\ zone_lists_ok h' /\ numbered h' /\ nodes_merged h'.
Proof.
  intros F text h h' evs E Hf Nd.
  destruct (load_incidence_main _ _ _ _ _ E Hf Nd (or_introl eq_refl)) as [Ht Hz].
  destruct (load_result _ _ _ _ _ E Hf) as [[] _].
  split; [split; auto|]. split; [auto|]. split; [apply numbered_of; auto|]. split; auto.
Qed.

Lemma plate_ok : grid_ok plate /\ zone_lists_ok plate /\ numbered plate /\ nodes_merged plate.
Proof. exact (loaded_good _ _ _ _ plate_run two_zones_form two_zones_nd). Qed.

Lemma plate_vars : grid_vars plate = [lit "T"; lit "Hw"].
Proof. vm_compute. reflexivity. Qed.

Definition plain_nameb (s : str) : bool :=
  forallb (fun c => negb (Ascii.eqb c eqsign) && negb (Ascii.eqb c nl) && negb (Ascii.eqb c cr)) s.
Lemma plain_nameb_ok : forall s, plain_nameb s = true -> plain_name s.
Proof.
  intros s H c Hc. unfold plain_nameb in H. rewrite forallb_forall in H. specialize (H c Hc).
  repeat split; intros ->; vm_compute in H; discriminate.
Qed.
Definition plain_varb (s : str) : bool :=
  match s with [] => false | _ => true end &&
  forallb (fun c => negb (is_space c) && negb (Ascii.eqb c dquote) && negb (Ascii.eqb c comma) && negb (Ascii.eqb c eqsign)) s.
Lemma plain_varb_ok : forall s, plain_varb s = true -> plain_var s.
Proof.
  intros s H. unfold plain_varb in H. apply andb_true_iff in H as [H1 H]. split; [destruct s; discriminate|].
  intros c Hc. rewrite forallb_forall in H. specialize (H c Hc).
  destruct (is_space c); [discriminate|]. repeat split; intros ->; vm_compute in H; discriminate.
Qed.

Definition writableb {F : FloatOps} (h : heap) : bool :=
  negb (length (g_faces h) =? 0) && plain_nameb (g_name h) && forallb (fun z => plain_nameb (z_name h z)) (g_zones h) &&
  forallb plain_varb (grid_vars h) && (length (nodup str_dec (grid_vars h)) =? length (grid_vars h)).
Lemma writableb_ok : forall {F : FloatOps} h, writableb h = true -> writable h.
Proof.
  intros F h H. unfold writableb in H. repeat (apply andb_true_iff in H as [H ?]).
  unfold writable. split; [destruct (g_faces h); discriminate|]. split; [apply plain_nameb_ok; auto|].
  rewrite forallb_forall in H1, H2. split; [intros; apply plain_nameb_ok; auto|].
  split; [intros; apply plain_varb_ok; auto|]. apply Nat.eqb_eq in H0.
  clear - H0. induction (grid_vars h) as [|k l IH]; [constructor|]. cbn in H0.
  assert (L : forall l, length (nodup str_dec l) <= length l).
  { induction l0; cbn; auto. destruct (in_dec str_dec a l0); cbn; lia. }
  destruct (in_dec str_dec k l) as [Hi|Hi]; [specialize (L l); lia|]. constructor; auto.
Qed.

Lemma plate_writable : writable plate.
Proof. apply writableb_ok. vm_compute. reflexivity. Qed.
