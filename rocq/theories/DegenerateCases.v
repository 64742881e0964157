(** Concrete files with degenerate faces. *)

From Coq Require Import ZArith NArith Ascii String Bool Lia List.
From Verif Require Import Py Heap GridModel GridSpec GridIO FileSpec Samples SamplesIO.
Import ListNotations.
Open Scope list_scope.
Open Scope nat_scope.

(** Two faces, each of two different points; they have one point in common. *)
Definition flats : str := text_of
  (["VARIABLES=""X"", ""Y"", ""Z"", ""T"", ""Hw"""]%string ++
   zone_head "A" "4" "2" ++ ["0 0 2 0"; "0 0 0 2"; "0 0 0 0"; "7 8"; "70 80"; "1 2 3"; "1 2 4"]%string).
Definition zone_flats : @zone_rec ZOps := mkZone (lit "A") [lit "T"; lit "Hw"]
  [(0, 0, 0); (0, 0, 0); (2, 0, 0); (0, 2, 0)]%Z [[7; 70]; [8; 80]]%Z [(0, 1, 2); (0, 1, 3)].

(** A face of two points beside a triangle. *)
Definition beside : str := text_of
  (["VARIABLES=""X"", ""Y"", ""Z"", ""T"", ""Hw"""]%string ++
   zone_head "A" "4" "2" ++ ["0 0 2 0"; "0 0 0 2"; "0 0 0 0"; "7 8"; "70 80"; "1 3 4"; "1 2 3"]%string).
Definition zone_beside : @zone_rec ZOps := mkZone (lit "A") [lit "T"; lit "Hw"]
  [(0, 0, 0); (0, 0, 0); (2, 0, 0); (0, 2, 0)]%Z [[7; 70]; [8; 80]]%Z [(0, 2, 3); (0, 1, 2)].

(** A triangle and a face of one point, a corner of the triangle. *)
Definition point : str := text_of
  (["VARIABLES=""X"", ""Y"", ""Z"", ""T"", ""Hw"""]%string ++
   zone_head "A" "4" "2" ++ ["0 0 2 0"; "0 0 0 2"; "0 0 0 0"; "7 8"; "70 80"; "1 3 4"; "1 2 1"]%string).
Definition zone_point : @zone_rec ZOps := mkZone (lit "A") [lit "T"; lit "Hw"]
  [(0, 0, 0); (0, 0, 0); (2, 0, 0); (0, 2, 0)]%Z [[7; 70]; [8; 80]]%Z [(0, 2, 3); (0, 1, 0)].

Lemma flats_form : @file_form ZOps [] (file_lines flats) [EZone zone_flats].
Proof. vm_compute file_lines. vars_tac. zone_tac zone_flats. apply ff_end. Qed.
Lemma beside_form : @file_form ZOps [] (file_lines beside) [EZone zone_beside].
Proof. vm_compute file_lines. vars_tac. zone_tac zone_beside. apply ff_end. Qed.
Lemma point_form : @file_form ZOps [] (file_lines point) [EZone zone_point].
Proof. vm_compute file_lines. vars_tac. zone_tac zone_point. apply ff_end. Qed.

Definition flats_heap : @heap ZOps := snd (@load ZOps true flats empty_heap).
Lemma flats_pair : @load ZOps true flats empty_heap = (Ok tt, flats_heap).
Proof. rewrite (surjective_pairing (load true flats empty_heap)). unfold flats_heap. f_equal. Qed.

(** The edges, their ends and their faces: the edge 0 goes from a point to itself and joins
    the two faces, the edges 1 and 2 have one face twice. *)
Lemma flats_edges : g_edges flats_heap = [0; 1; 2] /\ e_nodes flats_heap 0 = [0; 0] /\ e_faces flats_heap 0 = [0; 1] /\
  e_faces flats_heap 1 = [0; 0] /\ e_faces flats_heap 2 = [1; 1].
Proof. vm_compute. repeat split. Qed.

Lemma flats_degenerate : ~ @no_degenerate ZOps [zone_flats].
Proof. intros K. specialize (K _ (or_introl eq_refl)). vm_compute in K. inversion K as [|? ? K1 _]; subst. apply K1. left. reflexivity. Qed.
