(** Property theorems about file names, grouping and flattening
    (C24 - C27). *)

From Coq Require Import ZArith NArith Ascii String Bool Lia List.
From Verif Require Import Py Utils UtilsSpec UtilsProofs NamesExact.
Import ListNotations.
Open Scope list_scope.

(** C27.  flatten returns the leaves from left to right, contains no list, and
    flattening again changes nothing. *)
Theorem C27_flatten : forall A (ar : list (nested A)),
  exists r, LeavesL ar r /\ flatten ar = map Leaf r /\ flatten (flatten ar) = flatten ar.
Proof. exact flatten_correct. Qed.
Print Assumptions C27_flatten.

Example C27_example :
  flatten [Leaf 1%nat; Nest [Nest [Leaf 2%nat]; Nest []; Leaf 3%nat]; Leaf 4%nat]
  = map Leaf [1; 2; 3; 4]%nat.
Proof. reflexivity. Qed.

(** C25.  Appending a timestamp is inverted. *)
Theorem C25_timestamp_inverse : forall s t, twelve_digits t ->
  get_filename_and_timestamp_pair (s ++ lit "_" ++ t) = (s, t).
Proof. exact ts_pair_append. Qed.
Print Assumptions C25_timestamp_inverse.

(** C25.  Names without a timestamp suffix are returned whole. *)
Theorem C25_timestamp_default : forall s,
  (forall b t, twelve_digits t -> s <> b ++ lit "_" ++ t /\ s <> b ++ lit "_" ++ t ++ [nl]) ->
  get_filename_and_timestamp_pair s = (s, lit "000000000000").
Proof. exact ts_pair_default. Qed.
Print Assumptions C25_timestamp_default.

(** C25.  The returned timestamp consists of twelve digits, for every name that
    does not end in a line feed. *)
Theorem C25_timestamp_digits_partial : forall s b t,
  (forall b, s <> b ++ [nl]) ->
  get_filename_and_timestamp_pair s = (b, t) -> twelve_digits t.
Proof. exact ts_pair_digits. Qed.
Print Assumptions C25_timestamp_digits_partial.

(** C25.  Without that condition it is false: '$' also matches before a final
    line feed. *)
Theorem C25_timestamp_digits_refuted : exists s b t,
  get_filename_and_timestamp_pair s = (b, t) /\ ~ twelve_digits t.
Proof.
  exists (lit "grid_202301020304" ++ [nl]).
  eexists. eexists. split; [vm_compute; reflexivity|].
  intros [_ H]. vm_compute in H. discriminate.
Qed.
Print Assumptions C25_timestamp_digits_refuted.

Example C25_example :
  get_filename_and_timestamp_pair (lit "grid_1_000000000100") = (lit "grid_1", lit "000000000100")
  /\ get_filename_and_timestamp_pair (lit "grid_00000000010") = (lit "grid_00000000010", lit "000000000000").
Proof. split; vm_compute; reflexivity. Qed.

(** C24.  The parts of an MPI file name are recovered. *)
Theorem C24_mpi_name_parts : forall base zi ts e,
  (Z.of_nat zi < 100000)%Z -> twelve_digits ts -> length e = 3%nat ->
  dummy_split_filename (mpi_filename base zi ts (lit "." ++ e))
  = Ok (base, Some (Z.of_nat zi), Some (digits_val ts), e).
Proof. exact mpi_filename_split. Qed.
Print Assumptions C24_mpi_name_parts.

(** C24.  Names are recognised exactly for zone numbers below 100000. *)
Theorem C24_mpi_name_recognised_iff : forall base zi ts,
  twelve_digits ts ->
  is_filename_correct_crys_cry_file (mpi_filename base zi ts (lit ".cry")) base = Ok true
  <-> (Z.of_nat zi < 100000)%Z.
Proof. exact mpi_filename_recognised_iff. Qed.
Print Assumptions C24_mpi_name_recognised_iff.

(** C24.  The names recognised are exactly these: the stem, any character, five digits, any
    character, twelve digits, any character, the extension. *)
Theorem C24_recognised_exactly : forall fn stem, 23 <= length fn ->
  let named e := exists a m b t c, fn = stem ++ [a] ++ m ++ [b] ++ t ++ [c] ++ lit e /\ length m = 5 /\ all_digits m = true /\ twelve_digits t in
  (is_filename_correct_crys_cry_file fn stem = Ok true <-> named "cry"%string) /\ (is_filename_correct_crys_txt_file fn stem = Ok true <-> named "txt"%string).
Proof. intros fn stem L. split; apply name_exact; try reflexivity; exact L. Qed.
Print Assumptions C24_recognised_exactly.

Example C24_exactly_example : 23 <= length (lit "g_00000_000000000100.cry") /\ is_filename_correct_crys_cry_file (lit "g_00000_000000000100.cry") (lit "g") = Ok true.
Proof. split; [vm_compute; lia|reflexivity]. Qed.

(** C24.  So the separators need not be those written by store_mpi. *)
Theorem C24_separators_refuted : exists fn stem, is_filename_correct_crys_cry_file fn stem = Ok true /\
  forall m t, fn <> stem ++ lit "_" ++ m ++ lit "_" ++ t ++ lit ".cry".
Proof.
  exists (lit "g+00000x000000000100Ncry"), (lit "g"). split; [reflexivity|]. intros m t E. cbn in E. discriminate E.
Qed.
Print Assumptions C24_separators_refuted.

(** C24.  The unrestricted claim is false. *)
Theorem C24_mpi_name_recognised_refuted : exists base zi ts,
  twelve_digits ts /\
  is_filename_correct_crys_cry_file (mpi_filename base zi ts (lit ".cry")) base <> Ok true.
Proof.
  exists (lit "g"), (Z.to_nat 100000), (lit "000000000100").
  assert (H : twelve_digits (lit "000000000100")) by (split; reflexivity).
  split; [exact H|]. intro E. apply C24_mpi_name_recognised_iff in E; auto.
  rewrite Z2Nat.id in E; lia.
Qed.
Print Assumptions C24_mpi_name_recognised_refuted.

Example C24_example :
  dummy_split_filename (mpi_filename (lit "wing_1") 17 (lit "000000000100") (lit ".cry"))
  = Ok (lit "wing_1", Some 17%Z, Some 100%Z, lit "cry").
Proof. vm_compute. reflexivity. Qed.

(** C24.  Recognition is not total: a name with a superscript digit raises
    ValueError instead of being rejected. *)
Theorem C24_superscript_raises_refuted : exists fn stem,
  is_filename_correct_crys_cry_file fn stem = Raise EValueError.
Proof.
  exists (lit "g_0000" ++ [chr 178] ++ lit "_000000000100.cry"), (lit "g").
  vm_compute. reflexivity.
Qed.
Print Assumptions C24_superscript_raises_refuted.

(** C26.  One group per timestamp in order of first occurrence; the group of a
    timestamp is the sublist of files with that timestamp. *)
Theorem C26_group : forall fs,
  let d := group_txt_files_by_timestamps fs in
  keys d = first_occ str_dec (map file_ts fs) /\
  forall tm, dget str_dec d tm =
    match filter (fun f => str_eqb (file_ts f) tm) fs with [] => None | l => Some l end.
Proof. exact group_invariant. Qed.
Print Assumptions C26_group.

Example C26_example :
  group_txt_files_by_timestamps
    [lit "g_00000_000000000100.txt"; lit "g_00000_000000000200.txt"; lit "g_00001_000000000100.txt"]
  = [(lit "000000000100", [lit "g_00000_000000000100.txt"; lit "g_00001_000000000100.txt"]);
     (lit "000000000200", [lit "g_00000_000000000200.txt"])].
Proof. vm_compute. reflexivity. Qed.
