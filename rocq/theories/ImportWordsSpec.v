(** Vocabulary of C89: what a file must say for Grid.Import to make a zone. *)

From Coq Require Import List.
From Verif Require Import Py Heap GridModel Import.
Import ListNotations.

Section ImportWordsSpec.
  Context {F : FloatOps}.

  (** The words of the line are the numbers [g y] of the elements [ys], one for each, in order. *)
  Definition line_says {A} (l : str) (g : A -> val) (ys : list A) : Prop := Forall2 (fun s y => prs s = Some (g y)) (split_ws l) ys.

  (** Three lines of the file are the coordinates of the nodes of the zone and five are the values of its faces ([] is the line read at the end of the file). *)
  Definition written_zone (ls : list str) (z : izone) : Prop :=
    exists lx ly lz lh lb l7 l8 l9, (forall l, In l [lx; ly; lz; lh; lb; l7; l8; l9] -> In l ls \/ l = []) /\
      line_says lx (fun p : pt => fst (fst p)) (iz_pts z) /\ line_says ly (fun p : pt => snd (fst p)) (iz_pts z) /\ line_says lz (fun p : pt => snd p) (iz_pts z) /\
      line_says lh if_htc (iz_faces z) /\ line_says lb if_beta (iz_faces z) /\ line_says l7 if_taux (iz_faces z) /\ line_says l8 if_tauy (iz_faces z) /\ line_says l9 if_tauz (iz_faces z).
End ImportWordsSpec.
