(** Proofs about the names of the files that remesh.py stores. *)

From Coq Require Import ZArith Ascii String Bool Lia List.
From Verif Require Import Py PyLemmas Utils UtilsSpec UtilsProofs Heap Programs ProgramsSpec.
Import ListNotations.
Open Scope list_scope.
Open Scope nat_scope.

Lemma contains_tl : forall a c s, contains a (c :: s) = false -> prefixb a (c :: s) = false /\ contains a s = false.
Proof. intros a c s H. cbn [contains] in H. apply orb_false_iff in H. exact H. Qed.

Lemma replace_none : forall k a b s, contains a s = false -> replace_from k a b s = s.
Proof.
  induction k as [|k IH]; intros a b s H; [reflexivity|]. cbn [replace_from]. destruct s as [|c s]; [reflexivity|].
  apply contains_tl in H as [H1 H2]. rewrite H1, IH by auto. reflexivity.
Qed.

Lemma before_r : forall c p rest, prefixb (lit "_r_") (c :: p ++ lit "_") = false -> prefixb (lit "_r_") (c :: p ++ lit "_r_" ++ rest) = false.
Proof.
  intros c p rest H. destruct p as [|x [|y p]].
  - cbn. apply andb_false_iff. right. reflexivity.
  - exact H.
  - exact H.
Qed.

Lemma replace_r : forall p k b rest, length p < k -> contains (lit "_r_") (p ++ lit "_") = false -> contains (lit "_r_") rest = false ->
  replace_from k (lit "_r_") b (p ++ lit "_r_" ++ rest) = p ++ b ++ rest.
Proof.
  induction p as [|c p IH]; intros k b rest L H R.
  - destruct k as [|k]; [lia|]. cbn [app]. change (replace_from (S k) (lit "_r_") b (lit "_r_" ++ rest)) with (b ++ replace_from k (lit "_r_") b rest).
    rewrite replace_none by auto. reflexivity.
  - cbn [List.length] in L. destruct k as [|k]; [lia|]. cbn [app] in H. apply contains_tl in H as [H1 H2].
    cbn [app replace_from]. rewrite before_r by auto. rewrite IH by (auto; lia). reflexivity.
Qed.

Lemma no_r : forall s, forallb (fun c => negb (Ascii.eqb c "_"%char)) s = true -> contains (lit "_r_") s = false.
Proof.
  induction s as [|c s IH]; intros H; [reflexivity|]. cbn [forallb] in H. apply andb_true_iff in H as [H1 H2].
  cbn [contains]. rewrite IH by auto. rewrite orb_false_r. cbn [lit list_ascii_of_string prefixb]. rewrite Ascii.eqb_sym.
  destruct (Ascii.eqb c "_"); [discriminate|reflexivity].
Qed.

Lemma digits_no_r : forall t e, forallb is_digit t = true -> contains (lit "_r_") (t ++ lit ".dat" ++ e) = contains (lit "_r_") e.
Proof.
  induction t as [|c t IH]; intros e H; [reflexivity|]. cbn [forallb] in H. apply andb_true_iff in H as [H1 H2].
  cbn [app contains]. rewrite (IH e H2). replace (prefixb (lit "_r_") (c :: t ++ lit ".dat" ++ e)) with false; [reflexivity|].
  cbn [lit list_ascii_of_string prefixb]. destruct (Ascii.eqb_spec "_" c) as [<-|N]; [|reflexivity]. vm_compute in H1. discriminate.
Qed.

Lemma from_slash : forall d s, no_slash s -> from_last_slash (d ++ lit "/" ++ s) = lit "/" ++ s.
Proof.
  induction d as [|c d IH]; intros s H.
  - cbn [app lit list_ascii_of_string from_last_slash]. unfold no_slash in H. rewrite H. reflexivity.
  - cbn [app from_last_slash]. replace (existsb (Ascii.eqb "/"%char) (d ++ lit "/" ++ s)) with true; [apply IH; auto|].
    symmetry. rewrite existsb_app. cbn. apply orb_true_r.
Qed.

Lemma from_plain : forall s, no_slash s -> from_last_slash s = s.
Proof.
  intros s H. destruct s as [|c s]; [reflexivity|]. cbn [from_last_slash]. unfold no_slash in H. cbn [existsb] in H.
  apply orb_false_iff in H as [_ ->]. reflexivity.
Qed.

Lemma slash_r : forall p, contains (lit "_r_") p = false -> contains (lit "_r_") (lit "/" ++ p) = false.
Proof. intros p H. change (lit "/" ++ p) with ("/"%char :: p). cbn [contains]. rewrite H. reflexivity. Qed.

Theorem remesh_name_ok : forall outdir dir nm t, contains (lit "_r_") (nm ++ lit "_") = false -> no_slash nm -> twelve_digits t ->
  remesh_name outdir (dir ++ lit "/" ++ nm ++ lit "_r_" ++ t ++ lit ".dat") = outdir ++ lit "//" ++ nm ++ lit "_" ++ t ++ lit ".dat" /\
  remesh_name outdir (nm ++ lit "_r_" ++ t ++ lit ".dat") = outdir ++ lit "/" ++ nm ++ lit "_" ++ t ++ lit ".dat" /\
  get_filename_and_timestamp_pair (nm ++ lit "_" ++ t) = (nm, t).
Proof.
  intros outdir dir nm t Hr Hs Ht.
  assert (Hd : forallb is_digit t = true) by apply Ht.
  assert (R : contains (lit "_r_") (t ++ lit ".dat") = false).
  { rewrite <- (app_nil_r (lit ".dat")). rewrite digits_no_r by auto. reflexivity. }
  assert (S : no_slash (nm ++ lit "_r_" ++ t ++ lit ".dat")).
  { unfold no_slash in *. rewrite !existsb_app, Hs. cbn. rewrite orb_false_r. clear - Hd. induction t as [|c t IH]; [reflexivity|].
    cbn [forallb existsb] in *. apply andb_true_iff in Hd as [H1 H2]. rewrite IH by auto.
    destruct (Ascii.eqb_spec "/" c) as [<-|N]; [vm_compute in H1; discriminate|reflexivity]. }
  unfold remesh_name, replace_all. split; [|split].
  - rewrite from_slash by auto. change (lit "//") with (lit "/" ++ lit "/"). rewrite <- !app_assoc. f_equal. f_equal.
    rewrite (app_assoc (lit "/") nm), replace_r; [rewrite <- !app_assoc; reflexivity| | |exact R].
    + rewrite !app_length. cbn. lia.
    + rewrite <- app_assoc. apply slash_r. exact Hr.
  - rewrite from_plain by auto. rewrite replace_r; [reflexivity| |exact Hr|exact R]. rewrite !app_length. cbn. lia.
  - apply ts_pair_append. exact Ht.
Qed.

(** Names without "_r_" stay as they are. *)
Theorem remesh_name_same : forall outdir dir nm, contains (lit "_r_") nm = false -> no_slash nm ->
  remesh_name outdir (dir ++ lit "/" ++ nm) = outdir ++ lit "//" ++ nm.
Proof.
  intros outdir dir nm Hr Hs. unfold remesh_name, replace_all. rewrite from_slash by auto.
  rewrite replace_none by (apply slash_r; auto). reflexivity.
Qed.

Lemma names_meet : exists outdir a b, a <> b /\ remesh_name outdir a = remesh_name outdir b.
Proof.
  exists (lit "out"), (lit "in/a_r_000000000100.dat"), (lit "in/a_000000000100.dat"). split; [discriminate|reflexivity].
Qed.

(** A name with "_r_" of its own. *)
Lemma name_lost : exists outdir nm t, no_slash nm /\ twelve_digits t /\
  remesh_name outdir (lit "in/" ++ nm ++ lit "_r_" ++ t ++ lit ".dat") <> outdir ++ lit "//" ++ nm ++ lit "_" ++ t ++ lit ".dat".
Proof.
  exists (lit "out"), (lit "wing_r_1"), (lit "000000000100"). split; [reflexivity|]. split; [split; reflexivity|]. discriminate.
Qed.
