(** Specification vocabulary for the programs that copy data of faces to the nearest faces of
    another grid. *)

From Coq Require Import ZArith Reals Ascii String List.
From Verif Require Import Py Heap Geom ConvertSpec DropsSpec MpiSpec.
Import ListNotations.
Open Scope list_scope.

Section TransferSpec.
  Context {F : FloatOps}.
  Variable real : val -> R.

  (** The mean of the corners of a face. *)
  Definition face_middle (h : heap) (f : nat) : vect :=
    match map (n_p h) (f_nodes h f) with
    | [(xa, ya, za); (xb, yb, zb); (xc, yc, zc)] =>
        (V3 ((real xa + real xb + real xc) / 3) ((real ya + real yb + real yc) / 3) ((real za + real zb + real zc) / 3))%R
    | _ => V3 0 0 0
    end.

  (** The face [g] of the grid [hs] is one of the nearest, or the first of the nearest, to the
      face [f] of the grid [ht]. *)
  Definition near_face (hs ht : heap) (f g : nat) : Prop := nearest (face_middle hs) (g_faces hs) (face_middle ht f) g.
  Definition first_near_face (hs ht : heap) (f g : nat) : Prop := first_nearest (face_middle hs) (g_faces hs) (face_middle ht f) g.

  (** The value of the variable [v] on the face [f] of the grid [ht], if the variables [ks] come
      from the face [g] of the grid [hs]. *)
  Definition from_face (ks : list str) (hs ht : heap) (g f : nat) (v : str) : val :=
    if in_dec str_dec v ks then var_value hs g v else var_value ht f v.
End TransferSpec.

(** [query] finds one of the nearest points. *)
Definition finds_nearest (query : list vect -> vect -> nat) : Prop :=
  forall pts p, pts <> [] -> exists e, nth_error pts (query pts p) = Some e /\ nearest (fun x => x) pts p e.
