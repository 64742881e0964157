(** Model of the collection of ice heights before remeshing, crys.py:146-173. *)

From Coq Require Import ZArith NArith Ascii String Bool List.
From Verif Require Import Py Heap Exchange.
Import ListNotations.
Open Scope list_scope.
Open Scope nat_scope.

Section Gather.
  Context {F : FloatOps}.

  (** The variable that is written, crys.py:173. *)
  Definition hi_name : str := lit "Hi".

  (** The loop over zip(zone.Faces, slice), crys.py:172-173. *)
  Fixpoint write_his (fs : list nat) (vs : list val) (d : fdata) : fdata :=
    match fs, vs with
    | f :: fs', v :: vs' => write_his fs' vs' (data_set d f hi_name v)
    | _, _ => d
    end.

  (** The loop over zones, crys.py:171-173: the slice of zone [i] is
      [i * sendcounts[i] : (i + 1) * sendcounts[i]]. *)
  Fixpoint spread (h : heap) (i : nat) (zs : list nat) (counts : list nat) (buf : list val) (d : fdata)
    : res fdata :=
    match zs with
    | [] => Ok d
    | z :: r =>
        do c <- py_get counts (Z.of_nat i);
        spread h (S i) r counts buf
          (write_his (z_faces h z) (py_slice buf (Z.of_nat (i * c)) (Z.of_nat (S i * c))) d)
    end.

  (** The gathering part of remesh on the root, crys.py:157-173: [his] are the arrays sent
      by the ranks; gather and Gatherv (158, 166) deliver their sizes and their concatenation.
      The remeshing itself (175-176) is not part of this function. *)
  Definition gather_his (h : heap) (his : list (list val)) (d : fdata) : res fdata :=
    spread h 0 (g_zones h) (map (@length val) his) (concat his) d.
End Gather.
