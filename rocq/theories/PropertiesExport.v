(** Properties of the numbers written by the converter: C124.

    Model: DoubleExport.v, Double.v, Ansys.v, GridIO.v.  Specification vocabulary: DoubleSpec.v, AnsysSpec.v, AnsysExportSpec.v, FileSpec.v, DoubleRefusedSpec.v. *)

From Coq Require Import ZArith Reals Ascii String Bool List.
From Flocq Require Import Core.Core IEEE754.BinarySingleNaN.
From Verif Require Import Py TextLemmas Heap GridModel GridSpec GridIO FileSpec LoadProps Geom Convert ConvertSpec Ansys AnsysSpec AnsysExportSpec AnsysPipe
  AnsysCases AnsysExamples Double DoubleSpec DoubleProofs DoubleMore DoubleExport DoubleExportProofs DoubleExportMain DoubleCases DoubleRefusedSpec DoubleRefused.
Import ListNotations.
Open Scope list_scope.
Open Scope nat_scope.

(* ================================================================== *)
(** C124.  A finite double is exported as the nearest number of millionths.  The number read back from the text is the double nearest to it;
    exported again, it gives the same text. *)
Theorem C124_written : forall v : number, is_finite (proj1_sig v) = true ->
  decimal_text (Bsign (proj1_sig v)) (Z.abs (places 6 (B2R (proj1_sig v)))) (-6) (write_fixed (proj1_sig v)) /\
  exists w : number, @prs DoubleOps (write_fixed (proj1_sig v)) = Some w /\ is_finite (proj1_sig w) = true /\
    nearest_double (Bsign (proj1_sig v)) (IZR (Z.abs (places 6 (B2R (proj1_sig v)))) * ten (-6)) (proj1_sig w) /\
    places 6 (B2R (proj1_sig w)) = places 6 (B2R (proj1_sig v)) /\ write_fixed (proj1_sig w) = write_fixed (proj1_sig v).
Proof. exact export_double. Qed.
Print Assumptions C124_written.

(** C124.  A number of less than half a millionth becomes zero. *)
Theorem C124_small : forall v : number, is_finite (proj1_sig v) = true -> (Rabs (B2R (proj1_sig v)) < / 2 * ten (-6))%R ->
  exists w : number, @prs DoubleOps (write_fixed (proj1_sig v)) = Some w /\ proj1_sig w = B754_zero (Bsign (proj1_sig v)).
Proof. exact export_small. Qed.
Print Assumptions C124_small.

(** C124.  So values (friction, Beta) are not kept by the export. *)
Theorem C124_kept_refuted : exists v w : number, is_finite (proj1_sig v) = true /\ (B2R (proj1_sig v) <> 0)%R /\
  @prs DoubleOps (write_fixed (proj1_sig v)) = Some w /\ (B2R (proj1_sig w) = 0)%R.
Proof. exact lost_main. Qed.
Print Assumptions C124_kept_refuted.

(** C124.  The whole export of a readable file: a well-formed file with the zones of the source; each number of it is the double nearest to the nearest
    number of millionths. *)
Theorem C124_file : forall fl rv ps, Forall good_piece ps -> Forall (readable fl) (blocks_of ps) ->
  (forall b x, In b (blocks_of ps) -> In x (b_name b) -> x <> eqsign /\ x <> nl /\ x <> cr) ->
  (forall x, nearest_double (Rlt_bool x 0) (IZR (Z.abs (places 6 x)) * ten (-6)) (proj1_sig (read_real x))) /\
  exists zs zrs, load_nodes_data fl rv 0 0 [] (file_of ps) = Ok zs /\ Forall2 (loaded_zone fl rv) (blocks_of ps) zs /\
    Forall2 (@exported DoubleOps read_real) zs zrs /\ @file_form DoubleOps [] (file_lines (List.concat (export fixed_real zs))) (map (@EZone DoubleOps) zrs).
Proof. exact (fun fl rv ps G R N => conj real_nearest (@nodes_to_faces DoubleOps fl fixed_real read_real rv ps real_word real_read G R N)). Qed.
Print Assumptions C124_file.

(** C124.  Two nodes of the source, of any zones, with the same nearest millionths become one node of the grid loaded from the exported file. *)
Theorem C124_joined : forall fl rv ps h h' zs, Forall good_piece ps -> Forall (readable fl) (blocks_of ps) ->
  (forall b x, In b (blocks_of ps) -> In x (b_name b) -> x <> eqsign /\ x <> nl /\ x <> cr) ->
  load_nodes_data fl rv 0 0 [] (file_of ps) = Ok zs -> @load DoubleOps true (List.concat (export fixed_real zs)) h = (Ok tt, h') ->
  forall z n z' n', In z zs -> In n (fz_nodes z) -> In z' zs -> In n' (fz_nodes z') ->
  places 6 (vx (cn_point n)) = places 6 (vx (cn_point n')) -> places 6 (vy (cn_point n)) = places 6 (vy (cn_point n')) -> places 6 (vz (cn_point n)) = places 6 (vz (cn_point n')) ->
  exists k, In k (g_nodes h') /\
    (forall j, In j (g_nodes h') -> n_rc h' j = @rnd DoubleOps (at_point (cn_point n)) -> j = k) /\
    (forall j, In j (g_nodes h') -> n_rc h' j = @rnd DoubleOps (at_point (cn_point n')) -> j = k) /\
    n_rc h' k = @rnd DoubleOps (at_point (cn_point n)) /\ n_rc h' k = @rnd DoubleOps (at_point (cn_point n')).
Proof. exact joined. Qed.
Print Assumptions C124_joined.

(** C124.  If the three corners of a face of the source have the same nearest millionths, the exported file is refused by the loader with an exception. *)
Theorem C124_refused : forall fl rv ps h zs, Forall good_piece ps -> Forall (readable fl) (blocks_of ps) ->
  (forall b x, In b (blocks_of ps) -> In x (b_name b) -> x <> eqsign /\ x <> nl /\ x <> cr) ->
  load_nodes_data fl rv 0 0 [] (file_of ps) = Ok zs ->
  forall z a b c na nb nc, In z zs -> In (a, b, c) (fz_faces z) ->
  nth_error (fz_nodes z) a = Some na -> nth_error (fz_nodes z) b = Some nb -> nth_error (fz_nodes z) c = Some nc ->
  same_places 6 (cn_point na) (cn_point nb) -> same_places 6 (cn_point na) (cn_point nc) ->
  fst (@load DoubleOps true (List.concat (export fixed_real zs)) h) = Raise EException.
Proof. exact export_refused. Qed.
Print Assumptions C124_refused.

(** C124.  "What the converter has read and exported can be loaded" is false: the corners of the face of this source are four ten-millionths apart, far more than the
    ten-billionths at which the loader joins nodes, and the exported file is refused. *)
Theorem C124_loadable_refuted : exists fl rv ps zs z a b c na nb nc, Forall good_piece ps /\ Forall (readable fl) (blocks_of ps) /\
  load_nodes_data fl rv 0 0 [] (file_of ps) = Ok zs /\ In z zs /\ In (a, b, c) (fz_faces z) /\
  nth_error (fz_nodes z) a = Some na /\ nth_error (fz_nodes z) b = Some nb /\ nth_error (fz_nodes z) c = Some nc /\
  differ (4 * ten (-7)) (cn_point na) (cn_point nb) /\ differ (4 * ten (-7)) (cn_point na) (cn_point nc) /\ differ (4 * ten (-7)) (cn_point nb) (cn_point nc) /\
  forall h, fst (@load DoubleOps true (List.concat (export fixed_real zs)) h) = Raise EException.
Proof. exact loadable_false. Qed.
Print Assumptions C124_loadable_refuted.

(** Texts of some numbers; a readable file is that of C77. *)
Example C124_example : write_fixed (proj1_sig (d (lit "-12.3456785"))) = lit "-12.345678" /\ write_fixed (proj1_sig (d (lit "4e-7"))) = lit "0.000000" /\
  write_fixed (proj1_sig (d (lit "1e22"))) = lit "10000000000000000000000.000000" /\ write_fixed (proj1_sig (d (lit "0.9999999"))) = lit "1.000000" /\
  (Forall good_piece [Head title; Data nodes_wing] /\ Forall (readable (fun s => Ok (INR (List.length s)))) (blocks_of [Head title; Data nodes_wing]) /\
   (forall b x, In b (blocks_of [Head title; Data nodes_wing]) -> In x (b_name b) -> x <> eqsign /\ x <> nl /\ x <> cr)).
Proof.
  split; [vm_compute; reflexivity|]. split; [vm_compute; reflexivity|]. split; [vm_compute; reflexivity|]. split; [vm_compute; reflexivity|]. exact nodes_case.
Qed.
