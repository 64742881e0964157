(** Theorem for property C116: a whole run of crys.py from the grid file to the stored file. *)

From Coq Require Import ZArith Reals Ascii String Bool Lia Lra List.
From Verif Require Import Py Heap GridModel GridSpec Mpi MpiSpec GridIO FileSpec StoreSpec Samples SamplesIO SamplesStore DriverSpec Geom Programs ProgramsSpec ProgramsCases
  ExchangeSpec Crys CrysSpec CrysProofs CrysFinal CrysCases.
From Verif Require Remesh RemeshSpec RemeshMore.
Import ListNotations.
Open Scope list_scope.
Open Scope nat_scope.

(* ================================================================== *)
(** C116.  Runs of crys.py on [size] ranks, with exchanges in which no send buffer is filled again before it
    has been read.  [hl] is the grid of the file, read on every rank.  Whatever the order of steps in
    the exchanges: there are a division [hz] of the grid between the ranks and a grid [hc] with the
    heights that the root has put together, such that the run has the result of the remeshing of [hc] -
    its exception or a file with the zones of [hz], the new positions, the height zero, T and Hw as in the
    input file (not as computed by the ranks), and the missing recovery factors. *)
Theorem C116_run : forall {F : FloatOps} plus real near text rf size h hl evs fixn o r, faithful_numbers ->
  file_form [] (file_lines text) evs -> no_degenerate (zones_of evs) -> faces_in (zones_of evs) <> 0 ->
  load true text (new_grid h) = (Ok tt, hl) -> 1 <= size ->
  crys_run plus real near before_reuse text rf size h fixn o r ->
  exists hz hc, in_zones hl size hz /\ collected plus hl hz hc /\
  match Remesh.remesh o (topo_of hl) (st_of real hc) with
  | Raise e => r = Raise e
  | Ok s' => let pos := fun n => pt_of near (Remesh.n_pos s' n) in apart pos hl ->
      exists out, r = Ok out /\ forall h0, exists h2, load true out h0 = (Ok tt, h2) /\
        same_surface pos (with_var recovery_factor (grid_vars hl)) (stored_value rf (near 0%R) hl) hz h2
  end.
Proof.
  intros F plus real near text rf size h hl evs fixn o r Hn Hf Nd Nf El Hs Hr.
  exact (run_main plus real near text rf size h hl evs Hn Hf Nd Nf El Hs fixn o r Hr).
Qed.
Print Assumptions C116_run.

(** The heights of [hc]: the faces of all zones one after another; with m the remainder of the division
    of the number of faces by the number of ranks, a face of zone number i gets the height of the face m places
    before it if i >= m, its own otherwise. *)
Theorem C116_heights : forall {F : FloatOps} plus hl size hz hc p f i z, 1 <= size -> in_zones hl size hz -> collected plus hl hz hc ->
  nth_error (g_zones hz) i = Some z -> In f (z_faces hz z) -> nth_error (flat_map (z_faces hz) (g_zones hz)) p = Some f ->
  exists g, nth_error (flat_map (z_faces hz) (g_zones hz)) (p - (if i <? length (g_faces hl) mod size then 0 else length (g_faces hl) mod size)) = Some g /\
    var_value hc f (lit "Hi") = plus (var_value hl g (lit "Hi")) 2%Z.
Proof. exact @collected_places. Qed.
Print Assumptions C116_heights.

(** So, if the number of faces is a multiple of the number of ranks, or all heights are the same, then the
    file is that of the remeshing of the input grid with all heights increased by 2: the positions do not depend on the
    number of ranks. *)
Theorem C116_equal_partial : forall {F : FloatOps} plus real near text rf size h hl evs fixn o r, faithful_numbers ->
  file_form [] (file_lines text) evs -> no_degenerate (zones_of evs) -> faces_in (zones_of evs) <> 0 ->
  load true text (new_grid h) = (Ok tt, hl) -> 1 <= size ->
  crys_run plus real near before_reuse text rf size h fixn o r ->
  (length (g_faces hl) mod size = 0 \/ forall f g, In f (g_faces hl) -> In g (g_faces hl) -> var_value hl f (lit "Hi") = var_value hl g (lit "Hi")) ->
  match Remesh.remesh o (topo_of hl) (st_of real (iced plus hl)) with
  | Raise e => r = Raise e
  | Ok s' => let pos := fun n => pt_of near (Remesh.n_pos s' n) in apart pos hl ->
      exists hz out, in_zones hl size hz /\ r = Ok out /\ forall h0, exists h2, load true out h0 = (Ok tt, h2) /\
        same_surface pos (with_var recovery_factor (grid_vars hl)) (stored_value rf (near 0%R) hl) hz h2
  end.
Proof.
  intros F plus real near text rf size h hl evs fixn o r Hn Hf Nd Nf El Hs Hr Hm.
  exact (run_equal plus real near text rf size h hl evs Hn Hf Nd Nf El Hs fixn o r Hr Hm).
Qed.
Print Assumptions C116_equal_partial.

(** Otherwise, as soon as no zone is empty, some face gets the height of another one ... *)
Theorem C116_mixed : forall {F : FloatOps} plus size hl hz hc, 1 <= size -> in_zones hl size hz -> collected plus hl hz hc ->
  size <= length (g_faces hl) -> length (g_faces hl) mod size <> 0 ->
  exists f g, In f (g_faces hl) /\ In g (g_faces hl) /\ f <> g /\ var_value hc f (lit "Hi") = plus (var_value hl g (lit "Hi")) 2%Z.
Proof. intros F plus size hl hz hc Hs I C. exact (run_mixed plus size hl Hs hz hc I C). Qed.
Print Assumptions C116_mixed.

(** ... and "the ice grown on a face is the ice computed for this face" is false: three faces in a strip on two
    ranks. *)
Theorem C116_heights_refuted : exists (F : FloatOps) plus real near text rf h hl evs fixn o r, faithful_numbers /\
  file_form [] (file_lines text) evs /\ no_degenerate (zones_of evs) /\ load true text (new_grid h) = (Ok tt, hl) /\
  crys_run plus real near before_reuse text rf 2 h fixn o r /\
  forall hz hc, in_zones hl 2 hz -> collected plus hl hz hc ->
    exists f, In f (g_faces hl) /\ var_value hc f (lit "Hi") <> plus (var_value hl f (lit "Hi")) 2%Z.
Proof.
  destruct (run_exists zplus zreal znear strip_text 1%Z 2 empty_heap strip_heap strip_evs Z_faithful strip_form strip_nd strip_some strip_run
    ltac:(lia) true (RemeshMore.two_steps true) strip_have strip_chain) as (r & Hr); [rewrite strip_faces; cbn; lia|].
  exists ZOps, zplus, zreal, znear, strip_text, 1%Z, empty_heap, strip_heap, strip_evs, true, (RemeshMore.two_steps true), r.
  split; [exact Z_faithful|]. split; [exact strip_form|]. split; [exact strip_nd|]. split; [exact strip_run|]. split; [exact Hr|].
  intros hz hc I C. destruct (C116_mixed zplus 2 strip_heap hz hc ltac:(lia) I C) as (f & g & Hf & Hg & N & E).
  - rewrite strip_faces. cbn. lia.
  - rewrite strip_faces. cbn. discriminate.
  - exists f. split; [exact Hf|]. rewrite E. apply strip_differ; assumption.
Qed.
Print Assumptions C116_heights_refuted.

(** Runs exist: if the surface is connected, has the three variables and not fewer faces than there are ranks,
    then all ranks get to the end (and the exchanges end however they are ordered, C32). *)
Theorem C116_exists : forall {F : FloatOps} plus real near text rf size h hl evs fixn o, faithful_numbers ->
  file_form [] (file_lines text) evs -> no_degenerate (zones_of evs) -> faces_in (zones_of evs) <> 0 ->
  load true text (new_grid h) = (Ok tt, hl) -> 1 <= size ->
  all_have hl work_vars -> connected hl (g_faces hl) -> size <= length (g_faces hl) ->
  exists r, crys_run plus real near before_reuse text rf size h fixn o r.
Proof.
  intros F plus real near text rf size h hl evs fixn o Hn Hf Nd Nf El Hs Ha C Hle.
  exact (run_exists plus real near text rf size h hl evs Hn Hf Nd Nf El Hs fixn o Ha C Hle).
Qed.
Print Assumptions C116_exists.

(** A rank whose zone has no common edge with another zone stops with ValueError (the maximum of no
    numbers) before the exchanges; the others work with the arrays of their zones increased by 1, 2 and 3. *)
Theorem C116_ranks : forall {F : FloatOps} plus text rf size h hl evs, faithful_numbers ->
  file_form [] (file_lines text) evs -> no_degenerate (zones_of evs) -> faces_in (zones_of evs) <> 0 ->
  load true text (new_grid h) = (Ok tt, hl) -> 1 <= size -> all_have hl work_vars ->
  exists w hz, in_zones hl size hz /\ forall rank z, nth_error (g_zones hz) rank = Some z ->
    (size = 1 \/ (exists y, y <> z /\ touching hz z y) -> exists p, prepare plus text rf size rank h = (Ok (w, p), hz) /\
       pr_zone p = z /\
       pr_t p = map (fun f => plus (var_value hl f (lit "T")) 1%Z) (z_faces hz z) /\
       pr_hi p = map (fun f => plus (var_value hl f (lit "Hi")) 2%Z) (z_faces hz z) /\
       pr_hw p = map (fun f => plus (var_value hl f (lit "Hw")) 3%Z) (z_faces hz z)) /\
    (1 < size -> (forall y, y <> z -> ~ touching hz z y) -> fst (prepare plus text rf size rank h) = Raise EValueError).
Proof.
  intros F plus text rf size h hl evs Hn Hf Nd Nf El Hs Ha.
  exact (prepare_main plus text rf size h hl evs Hn Hf Nd Nf El Hs Ha).
Qed.
Print Assumptions C116_ranks.

(** In particular when there are more ranks than faces. *)
Theorem C116_too_many : forall {F : FloatOps} plus text rf size h hl evs, faithful_numbers ->
  file_form [] (file_lines text) evs -> no_degenerate (zones_of evs) -> faces_in (zones_of evs) <> 0 ->
  load true text (new_grid h) = (Ok tt, hl) -> 1 <= size -> all_have hl work_vars -> length (g_faces hl) < size ->
  exists rank, rank < size /\ fst (prepare plus text rf size rank h) = Raise EValueError.
Proof.
  intros F plus text rf size h hl evs Hn Hf Nd Nf El Hs Ha Hlt.
  exact (prepare_too_many plus text rf size h hl evs Hn Hf Nd Nf El Hs Ha Hlt).
Qed.
Print Assumptions C116_too_many.

(** A face without one of the variables T, Hi, Hw: KeyError on some rank. *)
Theorem C116_missing : forall {F : FloatOps} plus text rf size h hl evs f k, faithful_numbers ->
  file_form [] (file_lines text) evs -> no_degenerate (zones_of evs) -> faces_in (zones_of evs) <> 0 ->
  load true text (new_grid h) = (Ok tt, hl) -> 1 <= size -> In f (g_faces hl) -> In k work_vars -> dget str_dec (f_data hl f) k = None ->
  exists rank, rank < size /\ fst (prepare plus text rf size rank h) = Raise EKeyError.
Proof.
  intros F plus text rf size h hl evs f k Hn Hf Nd Nf El Hs Hfc Hk E.
  exact (prepare_missing plus text rf size h hl evs Hn Hf Nd Nf El Hs f k Hfc Hk E).
Qed.
Print Assumptions C116_missing.

(** On a flat surface with the same height of ice [v] on all faces, every point of the file on a face, the stored
    file has all corners moved along the normal by the height v + 2 (times 1 + 1/2 + ... + 1/N without
    redistribution), on any number of ranks. *)
Theorem C116_flat : forall {F : FloatOps} plus real near text rf size h hl evs fixn o r n v N, faithful_numbers ->
  file_form [] (file_lines text) evs -> no_degenerate (zones_of evs) -> faces_in (zones_of evs) <> 0 ->
  load true text (new_grid h) = (Ok tt, hl) -> 1 <= size ->
  crys_run plus real near before_reuse text rf size h fixn o r ->
  (forall p, In p (all_pts (zones_of evs)) -> used (zones_of evs) p) ->
  (forall f a b c, In f (g_faces hl) -> f_nodes hl f = [a; b; c] ->
     normal_orth (Tri (vect_of real (n_p hl a)) (vect_of real (n_p hl b)) (vect_of real (n_p hl c)) f) = Ok n) ->
  (forall f, In f (g_faces hl) -> var_value hl f (lit "Hi") = v) ->
  (Remesh.nss_steps o <= 0)%Z -> Remesh.pseudo_2d_oz o = false -> (0 < Remesh.nsmooth_k o)%R -> (0 <= Remesh.hsmooth_alfa o)%R ->
  (0 <= real (plus v 2%Z))%R ->
  Remesh.calculate_nsteps o (topo_of hl) (st_of real (iced plus hl)) = Ok N -> (1 <= N)%Z ->
  let q := if Remesh.rest_volume_redistr o then real (plus v 2%Z) else (real (plus v 2%Z) * RemeshSpec.harmonic (Z.to_nat N))%R in
  let pos := fun k => pt_of near (vadd (vect_of real (n_p hl k)) (vmul n q)) in
  apart pos hl ->
  exists hz out, in_zones hl size hz /\ r = Ok out /\ forall h0, exists h2, load true out h0 = (Ok tt, h2) /\
    same_surface pos (with_var recovery_factor (grid_vars hl)) (stored_value rf (near 0%R) hl) hz h2.
Proof.
  intros F plus real near text rf size h hl evs fixn o r n v N Hn Hf Nd Nf El Hs.
  exact (run_flat plus real near text rf size h hl evs Hn Hf Nd Nf El Hs fixn o r n v N).
Qed.
Print Assumptions C116_flat.

(** All conditions together: a square with ice on one and on two ranks. *)
Example C116_example : forall size, size = 1 \/ size = 2 ->
  exists r hz out, crys_run zplus zreal znear before_reuse sq_text 1%Z size empty_heap true (RemeshMore.two_steps true) r /\
    in_zones sq_heap size hz /\ r = Ok out /\ forall h0, exists h2, load true out h0 = (Ok tt, h2) /\
    same_surface (fun k => pt_of znear (vadd (vect_of zreal (n_p sq_heap k)) (vmul (V3 0 0 1) (zreal (zplus (-1)%Z 2)))))
      (with_var recovery_factor (grid_vars sq_heap)) (stored_value 1%Z (znear 0%R) sq_heap) hz h2.
Proof.
  intros size Hsz. assert (Hs : 1 <= size <= 2) by lia. clear Hsz.
  destruct (C116_exists zplus zreal znear sq_text 1%Z size empty_heap sq_heap sq_evs true (RemeshMore.two_steps true) Z_faithful sq_form sq_nd sq_some sq_run
    (proj1 Hs) sq_have sq_chain) as (r & Hr); [rewrite sq_faces; cbn; lia|].
  destruct (C116_flat zplus zreal znear sq_text 1%Z size empty_heap sq_heap sq_evs true (RemeshMore.two_steps true) r (V3 0 0 1) (-1)%Z 2%Z
    Z_faithful sq_form sq_nd sq_some sq_run (proj1 Hs) Hr sq_used sq_flat sq_height) as (hz & out & I & E & K).
  - cbn. lia.
  - reflexivity.
  - cbn. lra.
  - cbn. lra.
  - rewrite sq_one. lra.
  - exact sq_steps.
  - lia.
  - cbn [Remesh.rest_volume_redistr RemeshMore.two_steps]. rewrite sq_one. exact sq_apart.
  - exists r, hz, out. split; [exact Hr|]. split; [exact I|]. split; [exact E|exact K].
Qed.

(** Three ranks for the two faces of the square. *)
Example C116_too_many_example : exists rank, rank < 3 /\ fst (prepare zplus sq_text 1%Z 3 rank empty_heap) = Raise EValueError.
Proof.
  apply (C116_too_many zplus sq_text 1%Z 3 empty_heap sq_heap sq_evs Z_faithful sq_form sq_nd sq_some sq_run); [lia|exact sq_have|rewrite sq_faces; cbn; lia].
Qed.

(** The square of C82 has no variable Hw. *)
Example C116_missing_example : exists rank, rank < 1 /\ fst (prepare zplus ice_text 1%Z 1 rank empty_heap) = Raise EKeyError.
Proof.
  apply (C116_missing zplus ice_text 1%Z 1 empty_heap ice_heap [ETitle (lit "ice"); EZone ice_zone] 0 (lit "Hw") Z_faithful ice_form ice_nd).
  - vm_compute. discriminate.
  - exact ice_run.
  - lia.
  - rewrite ice_faces. left. reflexivity.
  - right. right. left. reflexivity.
  - vm_compute. reflexivity.
Qed.
