(** Properties of files with degenerate faces: C125.

    Model: GridModel.v, GridIO.v.  Specification vocabulary: FileSpec.v (file_form, file_faces: the corners of the faces of the
    file, rounded), GridSpec.v. *)

From Coq Require Import ZArith Ascii String Bool Lia List Permutation.
From Verif Require Import Py Heap GridModel GridSpec GridIO FileSpec Samples SamplesIO DegenerateProofs DegenerateCases.
Import ListNotations.
Open Scope list_scope.
Open Scope nat_scope.

(** C125.  A file with a face all corners of which are at one place (after rounding) is
    refused with an exception, wherever the face stands. *)
Theorem C125_point_refused : forall {F : FloatOps} text h evs p, file_form [] (file_lines text) evs ->
  In [p; p; p] (file_faces (zones_of evs)) -> fst (load true text h) = Raise EException.
Proof. exact @point_main. Qed.
Print Assumptions C125_point_refused.

(** C125.  A face with exactly two different corners [p] and [q] is refused as soon as any
    other face of the file has the corners [p] and [q]. *)
Theorem C125_shared_refused : forall {F : FloatOps} text h evs i j t t' p q, file_form [] (file_lines text) evs ->
  nth_error (file_faces (zones_of evs)) i = Some t -> nth_error (file_faces (zones_of evs)) j = Some t' -> i <> j ->
  ~ NoDup t -> In p t -> In q t -> p <> q -> In p t' -> In q t' -> fst (load true text h) = Raise EException.
Proof. exact @shared_main. Qed.
Print Assumptions C125_shared_refused.

(** C125.  No other kind of failure: a file in the right form is loaded or refused with
    this exception. *)
Theorem C125_outcome : forall {F : FloatOps} merge text h evs, file_form [] (file_lines text) evs ->
  fst (load merge text h) = Ok tt \/ fst (load merge text h) = Raise EException.
Proof. exact @load_cases. Qed.
Print Assumptions C125_outcome.

(** C125.  If a file with a degenerate face is loaded all the same, the face is both sides
    of the edge between its two corners: the edge is no border edge, and the face is its
    own neighbour, although no other face has these corners. *)
Theorem C125_own_neighbour : forall {F : FloatOps} text h h' evs i t p q, load true text h = (Ok tt, h') ->
  file_form [] (file_lines text) evs -> nth_error (file_faces (zones_of evs)) i = Some t -> ~ NoDup t -> In p t -> In q t -> p <> q ->
  exists f e a b, nth_error (g_faces h') i = Some f /\ In e (g_edges h') /\ e_faces h' e = [f; f] /\
    In a (e_nodes h' e) /\ In b (e_nodes h' e) /\ n_rc h' a = p /\ n_rc h' b = q /\
    is_border h' e = false /\ get_neighbour h' f e = Ok (Some f) /\
    (forall j t', nth_error (file_faces (zones_of evs)) j = Some t' -> In p t' -> In q t' -> j = i).
Proof.
  intros F text h h' evs i t p q E Hf Hi Hd Hp Hq Hpq.
  destruct (degenerate_main text h h' evs i t p q E Hf Hi Hd Hp Hq Hpq) as (f & e & a & b & K1 & K2 & K3 & K4 & K5 & K6 & K7 & K8).
  exists f, e, a, b. repeat (split; [assumption|]). unfold is_border, get_neighbour. rewrite K3. cbn. rewrite Nat.eqb_refl. auto.
Qed.
Print Assumptions C125_own_neighbour.

(** C125.  "A file with a degenerate face is refused" is false: this one is loaded, and one
    of its edges goes from a node to the same node and joins two faces. *)
Theorem C125_refused_refuted : exists (F : FloatOps) text evs h', file_form [] (file_lines text) evs /\ ~ no_degenerate (zones_of evs) /\
  load true text empty_heap = (Ok tt, h') /\ ~ topo_ok h' /\
  exists e n f g, In e (g_edges h') /\ e_nodes h' e = [n; n] /\ e_faces h' e = [f; g] /\ f <> g.
Proof.
  exists ZOps, flats, [EZone zone_flats], flats_heap. split; [exact flats_form|]. split; [exact flats_degenerate|]. split; [exact flats_pair|].
  destruct flats_edges as (E1 & N0 & F0 & F1 & _). revert E1 N0 F0 F1. generalize flats_heap. intros hf E1 N0 F0 F1. split.
  - intros T. assert (K : In 1 (g_edges hf)) by (rewrite E1; cbn; auto). destruct (t_edge_faces _ T 1 K) as (_ & N & _).
    rewrite F1 in N. inversion N as [|? ? M _]; subst. apply M. left. reflexivity.
  - exists 0, 0, 0, 1. split; [rewrite E1; cbn; auto|]. split; [exact N0|]. split; [exact F0|discriminate].
Qed.
Print Assumptions C125_refused_refuted.

Example C125_example_point : file_form [] (file_lines point) [EZone zone_point] /\
  In [(0, 0, 0); (0, 0, 0); (0, 0, 0)]%Z (@file_faces ZOps [zone_point]) /\ fst (load true point empty_heap) = Raise EException.
Proof. split; [exact point_form|]. split; [vm_compute; auto|]. vm_compute. reflexivity. Qed.
Example C125_example_shared : file_form [] (file_lines beside) [EZone zone_beside] /\
  nth_error (@file_faces ZOps [zone_beside]) 1 = Some [(0, 0, 0); (0, 0, 0); (2, 0, 0)]%Z /\
  nth_error (@file_faces ZOps [zone_beside]) 0 = Some [(0, 0, 0); (2, 0, 0); (0, 2, 0)]%Z /\
  fst (load true beside empty_heap) = Raise EException.
Proof. split; [exact beside_form|]. vm_compute. auto. Qed.
Example C125_example_loaded : file_form [] (file_lines flats) [EZone zone_flats] /\ load true flats empty_heap = (Ok tt, flats_heap) /\
  nth_error (@file_faces ZOps [zone_flats]) 1 = Some [(0, 0, 0); (0, 0, 0); (0, 2, 0)]%Z.
Proof. split; [exact flats_form|]. split; [exact flats_pair|]. vm_compute. auto. Qed.
