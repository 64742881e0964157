(** Concrete air files and trajectories. *)

From Coq Require Import ZArith Reals Lra Bool List Lia String Ascii.
From Verif Require Import Py PyLemmas TextLemmas Heap GridSpec GridIO FileSpec Geom GeomProofs Convert Ansys Drops DropsText DropsTextSpec DropsTextProofs.
Import ListNotations.
Open Scope list_scope.
Open Scope nat_scope.

Definition aln (s : string) : str := lit s ++ [nl].

(** "a number" is read as the length of its text. *)
Definition len_fl (s : str) : res R := Ok (INR (List.length s)).

Definition brick_line (n e : string) : str := aln ("ZONE T=FEBRICK a b c N= " ++ n ++ " x E= " ++ e).
Definition tri_line (n e : string) : str := aln ("ZONE T=TRI a b N= " ++ n ++ " x E= " ++ e).

Definition row_text : str := aln "1 22 333 0 0 4444 5 66".
Definition row_sample : vect * vect := (V3 (INR 1) (INR 2) (INR 3), V3 (INR 4) (INR 1) (INR 2)).

Lemma row_ok : sample_row len_fl row_text row_sample.
Proof. repeat split; eexists; (split; [reflexivity|reflexivity]). Qed.

Lemma no_mention : forall k l, contains (lit k) l = false -> ~ mentions k l.
Proof. unfold mentions. intros; congruence. Qed.

Lemma brick_ok : brick_head (brick_line "1" "1") 1 1 /\ brick_head (brick_line "2" "0") 2 0.
Proof.
  split; (split; [split; [apply no_mention; reflexivity|split; [apply no_mention; reflexivity|reflexivity]]|]);
    (split; [eexists; split; reflexivity|]); (split; eexists; (split; reflexivity)).
Qed.

Lemma tri_ok : other_head (tri_line "1" "1") 1 1.
Proof.
  split; [split; [apply no_mention; reflexivity|split; [apply no_mention; reflexivity|reflexivity]]|].
  split; [eexists; split; [reflexivity|apply no_mention; reflexivity]|]. split; eexists; (split; reflexivity).
Qed.

Definition air_text : list str :=
  [aln "TITLE=x"; aln "VARIABLES=X"; brick_line "1" "1"; row_text; aln "1 1 1 1 1 1 1 1"; tri_line "1" "1"; aln "0 0 0"; aln "1 1 1"].

Lemma air_text_form : air_form len_fl air_text [row_sample].
Proof.
  unfold air_text. apply air_title; [reflexivity|]. apply air_vars; [reflexivity|].
  apply (air_brick len_fl _ [row_text] [aln "1 1 1 1 1 1 1 1"] _ [row_sample] []); [apply brick_ok| |].
  - constructor; [apply row_ok|constructor].
  - apply (air_other len_fl _ [aln "0 0 0"] [aln "1 1 1"] [] []); [apply tri_ok|apply air_end].
Qed.

(** A zone of one brick without its line of links, followed by a zone of another point:
    the head of the second zone is taken for the line of links, its row is an unexpected
    line, and its sample is lost. *)
Lemma swallowed : exists ls s, brick_head (brick_line "1" "1") 1 1 /\ sample_row len_fl row_text row_sample /\
  ls = [brick_line "1" "1"; row_text; brick_line "1" "1"; row_text; aln "1 1 1 1 1 1 1 1"] /\
  read_vel_field len_fl ls = Ok s /\ s_ds s = [row_sample].
Proof.
  eexists. eexists. split; [apply brick_ok|]. split; [apply row_ok|]. split; [reflexivity|].
  split; [reflexivity|]. reflexivity.
Qed.
