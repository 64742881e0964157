(** Cases for C120. *)

From Coq Require Import ZArith Ascii String Bool List Lia.
From Verif Require Import Py Heap GridModel Mpi GridIO FileSpec Samples SamplesIO SamplesStore ContentsSpec ContentsProofs.
Import ListNotations.
Open Scope list_scope.
Open Scope nat_scope.

Definition ln (s : string) : str := lit s ++ [nl].
Definition head_pieces : list piece := [PLine (ln "# crys-gsu"); PLine (ln "TITLE=""plate"""); PLine (ln "VARIABLES=""X"", ""Y"", ""Z"", ""T"", ""Hw""")].
Definition pieceA (nums conns : list str) : piece := PZone (ln "ZONE T=""A""") (ln "NODES=4") (ln "ELEMENTS=2") (ln "DATAPACKING=BLOCK") (ln "ZONETYPE=FETRIANGLE")
  (ln "VARLOCATION=([4-5]=CELLCENTERED)") nums conns.
Definition pieceB (nums conns : list str) : piece := PZone (ln "ZONE T=""B""") (ln "NODES=3") (ln "ELEMENTS=1") (ln "DATAPACKING=BLOCK") (ln "ZONETYPE=FETRIANGLE")
  (ln "VARLOCATION=([4-5]=CELLCENTERED)") nums conns.
Definition numsA := map ln ["0 1 0 -1"; "0 0 1 -1"; "0 0 0 0"; "7 8"; "70 80"]%string.
Definition connsA := map ln ["1 2 3"; "1 3 4"]%string.
Definition numsB := map ln ["1 0 1"; "0 1 1"; "0 0 0"; "9"; "90"]%string.
Definition two_pieces : list piece := head_pieces ++ [pieceA numsA connsA] ++ [pieceB numsB [lit "1 2 3" ++ [nl]]].

Lemma two_lines : file_lines two_zones = flat_map lines_of_piece two_pieces.
Proof. vm_compute. reflexivity. Qed.

Ltac pblock := do 19 eexists; split; [reflexivity|];
  split; [split; [reflexivity|eexists; split; reflexivity]|];
  split; [split; [reflexivity|eexists; split; reflexivity]|];
  split; [eexists; reflexivity|]; split; [eexists; reflexivity|]; split; [eexists; reflexivity|];
  split; [reflexivity|]; split; [reflexivity|];
  split; [numbers|]; split; [numbers|]; split; [numbers|];
  split; [reflexivity|]; split; [nth_tac|]; split; [reflexivity|];
  split; [repeat (eapply Forall2_cons; [numbers|]); apply Forall2_nil|];
  split; [reflexivity|]; split; [nth_tac|]; split; [reflexivity|];
  repeat (eapply Forall2_cons; [corner|]); apply Forall2_nil.

Lemma two_pieces_ok : @pieces ZOps [] two_pieces [ETitle (lit "plate"); EZone zoneA; EZone zoneB].
Proof.
  apply ps_comment; [reflexivity|].
  apply ps_title; [split; [discriminate|]; split; [reflexivity|]; eexists; split; reflexivity|].
  eapply ps_vars; [repeat (split; [discriminate || reflexivity|]); eexists; split; reflexivity|].
  refine (ps_zone _ _ _ _ _ _ _ _ _ _ zoneA _ _ _ _ _ _); [repeat (split; [discriminate || reflexivity|]); eexists; split; reflexivity|vm_compute numsA; vm_compute connsA; pblock|reflexivity|reflexivity|].
  refine (ps_zone _ _ _ _ _ _ _ _ _ _ zoneB _ _ _ _ _ _); [repeat (split; [discriminate || reflexivity|]); eexists; split; reflexivity|vm_compute numsB; pblock|reflexivity|reflexivity|].
  apply ps_end.
Qed.

(** More comments, numbers set apart in another way and written with other digits. *)
Definition dressed_pieces : list piece := [PLine (ln "# a copy")] ++ head_pieces ++ [PLine (ln "# first")] ++
  [pieceA (map ln ["  0 +1 0    -1"; "00 0 1 -1 "; "0 0 0 0"; " 7 08"; "70 80"]%string) (map ln ["1   2 3"; "01 3 4 "]%string)] ++
  [pieceB numsB [lit "  1 2 3" ++ [nl]]] ++ [PLine (ln "# end")].
Definition dressed : str := List.concat (flat_map lines_of_piece dressed_pieces).
Lemma dressed_lines : file_lines dressed = flat_map lines_of_piece dressed_pieces.
Proof. vm_compute. reflexivity. Qed.
Ltac words := unfold same_floats, same_ints; match goal with |- Forall2 _ (split_ws ?a) (split_ws ?b) =>
  let x := eval vm_compute in (split_ws a) in let y := eval vm_compute in (split_ws b) in change (split_ws a) with x; change (split_ws b) with y end;
  repeat (apply Forall2_cons; [vm_compute; reflexivity|]); apply Forall2_nil.
Lemma dressed_same : @rewritten ZOps two_pieces dressed_pieces.
Proof.
  apply rw_comment; [reflexivity|]. apply rw_line. apply rw_line. apply rw_line. apply rw_comment; [reflexivity|].
  apply rw_zone; [unfold numsA; cbn [map]; repeat (apply Forall2_cons; [words|]); apply Forall2_nil|unfold connsA; cbn [map]; repeat (apply Forall2_cons; [words|]); apply Forall2_nil|].
  apply rw_zone; [apply floats_refl|repeat (apply Forall2_cons; [words|]); apply Forall2_nil|]. apply rw_comment; [reflexivity|]. apply rw_end.
Qed.

(** The file without the last line end. *)
Definition chopped : str := removelast two_zones.
Lemma chopped_nl : chopped ++ [nl] = two_zones.
Proof. vm_compute. reflexivity. Qed.

(** A comment inside a zone. *)
Definition inside_comment : str := List.concat (flat_map lines_of_piece (head_pieces ++ [pieceA (ln "# coordinates" :: numsA) connsA] ++ [pieceB numsB [lit "1 2 3" ++ [nl]]])).
Lemma inside_raises : fst (@load ZOps true inside_comment empty_heap) = Raise EValueError.
Proof. vm_compute. reflexivity. Qed.

(** A title in the last line, with and without line end. *)
Definition title_last : str := lit "TITLE=""plate""".
Lemma title_loads : fst (@load ZOps true title_last empty_heap) = Ok tt /\ g_name (snd (@load ZOps true title_last empty_heap)) = lit "plat" /\
  fst (@load ZOps true (title_last ++ [nl]) empty_heap) = Ok tt /\ g_name (snd (@load ZOps true (title_last ++ [nl]) empty_heap)) = lit "plate".
Proof. vm_compute. auto. Qed.

(** A blank line at the end. *)
Lemma blank_raises : fst (@load ZOps true (two_zones ++ [nl]) empty_heap) = Raise EException.
Proof. vm_compute. reflexivity. Qed.
