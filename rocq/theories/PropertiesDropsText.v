(** Properties of the files of drops: C79 (the file of the air grid), C80 (the file of
    trajectories).

    Model: DropsText.v (with Drops.v and GridIO.v).  Specification vocabulary:
    DropsTextSpec.v, FileSpec.v. *)

From Coq Require Import ZArith Reals Lra List String.
From Verif Require Import Py TextLemmas Heap GridSpec GridIO FileSpec Geom Drops DropsSpec DropsCases DropsText DropsTextSpec DropsTextProofs DropsTextCases.
Import ListNotations.
Open Scope list_scope.
Open Scope nat_scope.

(* ================================================================== *)
(** C79.  The air field is read completely: the samples of a file are exactly the rows of
    its zones of bricks, in the order of the file, whatever other zones and head lines it
    has; the box of the air is the box of these points.  A file without samples raises
    ValueError.

    What is missing from the property: a file with missing lines is not always reported,
    see below. *)
Theorem C79_air_field_partial : forall fl ls ds, air_form fl ls ds -> ds <> [] ->
  exists b, box_of (map fst ds) = Ok b /\ read_vel_field fl ls = Ok (Space ds b).
Proof. exact read_vel_field_ok. Qed.
Print Assumptions C79_air_field_partial.

Theorem C79_no_samples : forall fl ls, air_form fl ls [] -> read_vel_field fl ls = Raise EValueError.
Proof. exact read_vel_field_empty. Qed.
Print Assumptions C79_no_samples.

(** A file that ends within the rows of a zone of bricks is reported ... *)
Theorem C79_short_rows : forall fl ls ds l n e rows samples, air_form fl ls ds -> brick_head l n e ->
  Forall2 (sample_row fl) rows samples -> List.length rows < n ->
  read_vel_field fl (ls ++ l :: rows) = Raise EIndexError.
Proof. exact short_rows_reported. Qed.
Print Assumptions C79_short_rows.

(** ... one that ends within the links is accepted, with all samples ... *)
Theorem C79_short_links : forall fl ls ds l n e rows links samples, air_form fl ls ds -> brick_head l n e ->
  List.length rows = n -> List.length links <= e -> Forall2 (sample_row fl) rows samples -> samples <> [] ->
  exists b, read_vel_field fl (ls ++ l :: rows ++ links) = Ok (Space (ds ++ samples) b).
Proof. exact short_links_accepted. Qed.
Print Assumptions C79_short_links.

(** ... and when links are missing before another zone, the line of this zone is taken for
    a link: its samples are lost, nothing is reported.  In the witness two zones with one
    row each give one sample. *)
Theorem C79_missing_links_refuted : exists ls s, brick_head (brick_line "1" "1") 1 1 /\ sample_row len_fl row_text row_sample /\
  ls = [brick_line "1" "1"; row_text; brick_line "1" "1"; row_text; aln "1 1 1 1 1 1 1 1"] /\
  read_vel_field len_fl ls = Ok s /\ s_ds s = [row_sample].
Proof. exact swallowed. Qed.
Print Assumptions C79_missing_links_refuted.

Example C79_example : air_form len_fl air_text [row_sample].
Proof. exact air_text_form. Qed.
Example C79_example_short : air_form len_fl air_text [row_sample] /\ brick_head (brick_line "2" "0") 2 0 /\ Forall2 (sample_row len_fl) [row_text] [row_sample].
Proof. split; [exact air_text_form|]. split; [apply brick_ok|]. constructor; [exact row_ok|constructor]. Qed.

(* ================================================================== *)
(** C80.  The file of trajectories of a run of drops has the form of a grid file: the title
    and then, for every trajectory, a zone named by the global number of its face with the
    points of the trajectory in order as nodes and a triangle with two equal corners for
    every leg.  [fm] is str(.), [rd x] is the number read back from it. *)
Theorem C80_file_partial : forall {F : FloatOps} fm rd, (forall x, word (fm x)) -> (forall x, prs (fm x) = Some (rd x)) ->
  forall fs ds d dt thr n gs trs glo, Forall dict_ok fs -> drops fs ds d dt thr n = Ok (gs, trs) ->
  file_form [] (file_lines (List.concat (trajectories_file fm glo trs)))
    (ETitle (lit "Trajectories") :: map (fun t => EZone (drawn rd (glo (fst t)) (snd t))) trs).
Proof. exact @drops_trajectories_form. Qed.
Print Assumptions C80_file_partial.

(** "So it can be loaded as a grid" is false: load raises an exception for every file of
    trajectories in which some trajectory has a leg. *)
Theorem C80_not_loadable : forall {F : FloatOps} fm rd, (forall x, word (fm x)) -> (forall x, prs (fm x) = Some (rd x)) ->
  forall glo trs, Forall (fun t => snd t <> []) trs -> Exists (fun t : nat * list vect => 2 <= List.length (snd t)) trs ->
  forall merge h, fst (load merge (List.concat (trajectories_file fm glo trs)) h) = Raise EException.
Proof. exact @trajectories_not_loadable. Qed.
Print Assumptions C80_not_loadable.

Theorem C80_load_refuted : forall {F : FloatOps} fm rd glo, (forall x, word (fm x)) -> (forall x, prs (fm x) = Some (rd x)) ->
  exists fs ds d dt thr n gs trs, Forall dict_ok fs /\ drops fs ds d dt thr n = Ok (gs, trs) /\
  forall merge h, fst (load merge (List.concat (trajectories_file fm glo trs)) h) = Raise EException.
Proof.
  intros F fm rd glo Hw Hp. destruct two_land as (c & _ & _ & gs & E).
  exists two_faces, still_air, 1%R, 1%R, 0%R, 1%Z, gs, [(0, [V3 1 1 1; V3 1 1 (-1)]); (1, [V3 1 1 1; V3 1 1 (-1)])].
  split; [repeat constructor; cbn; intuition discriminate|]. split; [exact E|].
  apply (trajectories_not_loadable fm rd Hw Hp); [repeat (constructor; [discriminate|]); constructor|]. constructor. cbn. auto.
Qed.
Print Assumptions C80_load_refuted.

(** The reason: a file whose first face has its third corner in the place of the first or
    the second one (after rounding) is never loaded. *)
Theorem C80_degenerate_first_face : forall {F : FloatOps} merge text h evs x y z rest, file_form [] (file_lines text) evs ->
  file_faces (zones_of evs) = [x; y; z] :: rest -> z = x \/ z = y -> fst (load merge text h) = Raise EException.
Proof. exact @load_degenerate. Qed.
Print Assumptions C80_degenerate_first_face.

(** A run with a trajectory of two points. *)
Example C80_example : Forall dict_ok two_faces /\ exists r, drops two_faces still_air 1 1 0 1 = Ok r.
Proof.
  split; [repeat constructor; cbn; intuition discriminate|].
  destruct two_land as (c & _ & _ & gs & E). eauto.
Qed.
Example C80_example_legs : Forall (fun t => snd t <> []) [(0, [V3 1 1 1; V3 1 1 (-1)])] /\
  Exists (fun t : nat * list vect => 2 <= List.length (snd t)) [(0, [V3 1 1 1; V3 1 1 (-1)])].
Proof. split; [constructor; [discriminate|constructor]|constructor; cbn; auto]. Qed.
