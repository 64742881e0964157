(** Properties of line ends: C119.

    Model: Py.v (universal_nl: `open(..., 'r')`), GridIO.v, Driver.v, Stamps.v, Programs.v, Import.v, AnsysMain.v, LazuritMain.v.
    Specification vocabulary: EndsSpec.v. *)

From Coq Require Import ZArith Reals Ascii String Bool List.
From Verif Require Import Py Heap GridModel GridIO Utils Driver Stamps LazuritMain AnsysMain Import Programs Remesh
  Samples SamplesIO OptionsCases CycleCases StampsCases EndsSpec EndsProofs.
Import ListNotations.
Open Scope list_scope.
Open Scope nat_scope.

(* ================================================================== *)
(** C119.  A grid file gives the same grid (or the same exception) whatever its line ends are: LF, CR LF, CR or
    a mixture. *)
Theorem C119_load : forall {F : FloatOps} t u m h, other_ends t u -> load m u h = load m t h.
Proof. exact @load_ends. Qed.
Print Assumptions C119_load.

(** C119.  Every text can be written with any of the three line ends; so the theorems are about every grid file. *)
Theorem C119_every : forall e t, (forall c, In c t -> c <> cr) -> e = [nl] \/ e = [cr; nl] \/ e = [cr] -> other_ends t (with_ends e t).
Proof. exact with_ends_ok. Qed.
Print Assumptions C119_every.

(** C119.  split writes the same. *)
Theorem C119_split : forall {F : FloatOps} g g' sf strat fixed rf t h, other_ends g g' ->
  split (Some g') sf strat fixed rf t h = split (Some g) sf strat fixed rf t h.
Proof. exact @split_ends. Qed.
Print Assumptions C119_split.
Theorem C119_split_run : forall {F : FloatOps} stem g g' sf strat fixed rf h, other_ends g g' ->
  split_run stem (Some g') sf strat fixed rf h = split_run stem (Some g) sf strat fixed rf h.
Proof. exact @split_run_ends. Qed.
Print Assumptions C119_split_run.

(** C119.  merge writes the same, whatever line ends the grid file and the texts of the solver have. *)
Theorem C119_merge : forall {F : FloatOps} stem g g' d d', other_ends g g' -> same_dir d d' ->
  forall h, merge_run stem (Some g') d' h = merge_run stem (Some g) d h.
Proof. exact @merge_run_ends. Qed.
Print Assumptions C119_merge.

(** C119.  So do remesh and the converters. *)
Theorem C119_remesh : forall {F : FloatOps} real near fix_nodes o g g' h, other_ends g g' ->
  remesh_file real near fix_nodes o g' h = remesh_file real near fix_nodes o g h.
Proof. exact @remesh_ends. Qed.
Print Assumptions C119_remesh.
Theorem C119_import : forall {F : FloatOps} t u, other_ends t u -> import_grid u = import_grid t.
Proof. exact @import_ends. Qed.
Print Assumptions C119_import.
Theorem C119_lazurit : forall {F : FloatOps} neg d d', same_dir d d' -> forall h, lazurit_to_crystal neg d' h = lazurit_to_crystal neg d h.
Proof. exact @lazurit_ends. Qed.
Print Assumptions C119_lazurit.
Theorem C119_ansys : forall {F : FloatOps} fl sfmt fm zones t v cp reversed f d a f' d' a' h, other_ends f f' -> other_ends d d' -> other_ends a a' ->
  ansys_to_crystal fl sfmt fm zones t v cp reversed f' d' a' h = ansys_to_crystal fl sfmt fm zones t v cp reversed f d a h.
Proof. exact @ansys_ends. Qed.
Print Assumptions C119_ansys.

(** The plate with CR LF, and the directory of the solver with CR. *)
Lemma plain_text : forall t, forallb (fun c => negb (Ascii.eqb c cr)) t = true -> forall c, In c t -> c <> cr.
Proof. intros t H c I E. rewrite forallb_forall in H. specialize (H c I). rewrite E in H. discriminate H. Qed.
Example C119_example : other_ends two_zones (with_ends [cr; nl] two_zones) /\ with_ends [cr; nl] two_zones <> two_zones /\
  same_dir wing_dir (map (fun p => (fst p, with_ends [cr] (snd p))) wing_dir) /\
  @is_ok _ (fst (@merge_run ZOps (lit "wing") (Some (with_ends [cr; nl] two_zones)) (map (fun p => (fst p, with_ends [cr] (snd p))) wing_dir) empty_heap)) = true.
Proof.
  split; [apply with_ends_ok; [apply plain_text; reflexivity|right; left; reflexivity]|].
  split; [intros K; apply (f_equal (@List.length ascii)) in K; vm_compute in K; discriminate K|].
  split; [|vm_compute; reflexivity]. unfold same_dir, wing_dir. cbn [map fst snd].
  repeat (apply Forall2_cons; [split; [reflexivity|apply with_ends_ok; [apply plain_text; reflexivity|right; right; reflexivity]]|]). apply Forall2_nil.
Qed.
