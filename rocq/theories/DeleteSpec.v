(** Vocabulary of C133: deletion of faces and edges of a grid. *)

From Coq Require Import Bool List Arith.
Import ListNotations.
From Verif Require Import Py Heap GridModel.

(** The list without the element. *)
Definition without (x : nat) (l : list nat) : list nat := filter (fun y => negb (Nat.eqb y x)) l.

Section DeleteSpec.
  Context {F : FloatOps}.

  (** What neither deletion changes: the nodes with their points, the zones with their names, the
      numbers of objects, the nodes, the data and the zones of faces, and the ends of edges. *)
  Definition rest_same (h h' : heap) : Prop :=
    g_nodes h' = g_nodes h /\ g_zones h' = g_zones h /\ g_name h' = g_name h /\ z_name h' = z_name h /\
    (forall n, In n (g_nodes h) -> n_p h' n = n_p h n /\ n_glo h' n = n_glo h n) /\
    (forall e, In e (g_edges h) -> e_nodes h' e = e_nodes h e /\ e_glo h' e = e_glo h e) /\
    (forall f, In f (g_faces h) -> f_nodes h' f = f_nodes h f /\ f_data h' f = f_data h f /\ f_glo h' f = f_glo h f /\ f_zone h' f = f_zone h f) /\
    (forall z, In z (g_zones h) -> z_nodes h' z = z_nodes h z).

  (** The face is in no list any more; the lists of edges are the same. *)
  Definition face_gone (h h' : heap) (f : nat) : Prop :=
    g_faces h' = without f (g_faces h) /\ g_edges h' = g_edges h /\
    (forall n, In n (g_nodes h) -> n_faces h' n = without f (n_faces h n) /\ n_edges h' n = n_edges h n) /\
    (forall e, In e (g_edges h) -> e_faces h' e = without f (e_faces h e)) /\
    (forall k, In k (g_faces h) -> f_edges h' k = f_edges h k) /\
    (forall z, In z (g_zones h) -> z_faces h' z = without f (z_faces h z) /\ z_edges h' z = z_edges h z).

  (** The edge is in no list any more; the lists of faces are the same. *)
  Definition edge_gone (h h' : heap) (e : nat) : Prop :=
    g_edges h' = without e (g_edges h) /\ g_faces h' = g_faces h /\
    (forall n, In n (g_nodes h) -> n_edges h' n = without e (n_edges h n) /\ n_faces h' n = n_faces h n) /\
    (forall k, In k (g_edges h) -> e_faces h' k = e_faces h k) /\
    (forall f, In f (g_faces h) -> f_edges h' f = without e (f_edges h f)) /\
    (forall z, In z (g_zones h) -> z_edges h' z = without e (z_edges h z) /\ z_faces h' z = z_faces h z).
End DeleteSpec.
