(** Specification vocabulary for sequences of transformations of a grid. *)

From Coq Require Import ZArith NArith Ascii String Bool List Permutation.
From Verif Require Import Py Heap GridModel GridSpec DecompSpec StoreSpec Atomic AtomicSpec CollapseSpec.
Import ListNotations.
Open Scope list_scope.
Open Scope nat_scope.

Section Acts.
  Context {F : FloatOps}.

  (** One call of a method of the grid. *)
  Inductive action : Type :=
  | ADecompMono (nm : option str)
  | ADecompRandom (rand : nat -> nat) (count : nat) (nm : option str)
  | ADecompLinear (count : nat) (nm : option str)
  | ADecompFarhat (count : nat) (nm : option str) (names : list str)
  | ADecompHier (fns : list (heap -> nat -> val)) (last : heap -> nat -> val) (levels : nat) (nm : option str) (names : list str)
  | ADivide (face : nat) (p : pt)
  | ASingle (edge : nat) (p : pt)
  | ACut (edge : nat) (p : pt)
  | ATwo (edge : nat) (p q : pt)
  | AFlip (face : nat)
  | ACollapse (edge : nat)
  | AMark.

  (** The call (results True / False are dropped). *)
  Definition perform (a : action) : M unit :=
    match a with
    | ADecompMono nm => decompose_mono nm
    | ADecompRandom rand count nm => decompose_random rand count nm
    | ADecompLinear count nm => decompose_linear count nm
    | ADecompFarhat count nm names => decompose_farhat count nm names
    | ADecompHier fns last levels nm names => decompose_hierarchical (fns ++ [last]) levels nm names
    | ADivide f p => divide_face f p
    | ASingle e p => cut_single_edge e p ;;; ret tt
    | ACut e p => cut_edge e p ;;; ret tt
    | ATwo e p q => cut_edge_with_two_nodes e p q ;;; ret tt
    | AFlip f => collapse_face f ;;; ret tt
    | ACollapse e => collapse_edge e ;;; ret tt
    | AMark => mark_all_fixed_nodes
    end.

  (** The faces of an edge are in one zone. *)
  Definition one_zone (h : heap) (e : nat) : Prop :=
    forall f g, In f (e_faces h e) -> In g (e_faces h e) -> f_zone h f = f_zone h g.

  (** The corners opposite to the edge [e] in its faces are not joined by an edge. *)
  Definition free_diagonal (h : heap) (e : nat) : Prop :=
    forall f g a b d, In f (e_faces h e) -> In g (e_faces h e) -> f <> g ->
      In a (f_nodes h f) -> ~ In a (e_nodes h e) -> In b (f_nodes h g) -> ~ In b (e_nodes h e) ->
      In d (g_edges h) -> ~ (In a (e_nodes h d) /\ In b (e_nodes h d)).

  (** The ends of the inner edge [e] can be made one node, and the members at the ends of the
      lists without the nodes, edges and faces to be deleted have the greatest numbers. *)
  Definition can_collapse (h : heap) (e f1 f2 : nat) : Prop :=
    NoDup (g_bag h) /\ exists n1 n2 n3 n4 e1 e2 ln le lf, e_nodes h e = [n1; n2] /\
      In n3 (f_nodes h f1) /\ n3 <> n1 /\ n3 <> n2 /\ In n4 (f_nodes h f2) /\ n4 <> n1 /\ n4 <> n2 /\
      contractible h f1 f2 n1 n2 n3 n4 /\
      In e1 (g_edges h) /\ Permutation (e_nodes h e1) [n2; n3] /\ In e2 (g_edges h) /\ Permutation (e_nodes h e2) [n2; n4] /\
      others [n2] (g_nodes h) ln /\ greatest_last (n_glo h) ln 1 (length (g_nodes h)) /\
      others [e; e1; e2] (g_edges h) le /\ greatest_last (e_glo h) le 3 (length (g_edges h)) /\
      others [f1; f2] (g_faces h) lf /\ greatest_last (f_glo h) lf 2 (length (g_faces h)).

  (** The arguments are members of the grid, the points are new, an edge to be replaced
      lies within one zone. *)
  Definition allowed (h : heap) (a : action) : Prop :=
    match a with
    | ADecompMono _ | AMark => True
    | ADecompRandom _ count _ | ADecompLinear count _ => count <> 0
    | ADecompFarhat count _ _ => count <> 0 /\ g_faces h <> []
    | ADecompHier fns last levels _ names => order_ok /\ Forall mesh_sign (fns ++ [last]) /\ 1 <= levels /\
        exists K, zones_named h names K /\ separates h K last
    | ADivide f p => In f (g_faces h) /\ new_point h p
    | ASingle e p => In e (g_edges h) /\ new_point h p
    | ACut e p => In e (g_edges h) /\ new_point h p /\ one_zone h e
    | ATwo e p q => In e (g_edges h) /\ new_point h p /\ new_point h q /\ rnd p <> rnd q /\ one_zone h e
    | AFlip f => In f (g_faces h) /\ forall e, In e (f_edges h f) -> one_zone h e /\ free_diagonal h e
    | ACollapse e => In e (g_edges h) /\ forall f1 f2, e_faces h e = [f1; f2] -> can_collapse h e f1 f2
    end.

  (** The same without the condition on zones (the contraction of an edge is left out). *)
  Definition allowed_any (h : heap) (a : action) : Prop :=
    match a with
    | ACut e p => In e (g_edges h) /\ new_point h p
    | ATwo e p q => In e (g_edges h) /\ new_point h p /\ new_point h q /\ rnd p <> rnd q
    | AFlip f => In f (g_faces h) /\ forall e, In e (f_edges h f) -> free_diagonal h e
    | ACollapse _ => False
    | _ => allowed h a
    end.

  (** The edges that the call may replace lie within one zone. *)
  Definition in_one_zone (h : heap) (a : action) : Prop :=
    match a with
    | ACut e _ | ATwo e _ _ => one_zone h e
    | AFlip f => forall e, In e (f_edges h f) -> one_zone h e
    | _ => True
    end.

  (** The call makes new zones. *)
  Definition decomposing (a : action) : Prop :=
    match a with
    | ADecompMono _ | ADecompRandom _ _ _ | ADecompLinear _ _ | ADecompFarhat _ _ _ | ADecompHier _ _ _ _ _ => True
    | _ => False
    end.

  (** The new name of the grid. *)
  Definition new_name (a : action) : option str :=
    match a with
    | ADecompMono nm | ADecompRandom _ _ nm | ADecompLinear _ nm | ADecompFarhat _ nm _ | ADecompHier _ _ _ nm _ => nm
    | _ => None
    end.

  (** The names of the grid and of its zones have no '=' and no line breaks. *)
  Definition plain_names (h : heap) : Prop :=
    plain_name (g_name h) /\ forall z, In z (g_zones h) -> plain_name (z_name h z).

  (** There still is a face; every face has the data of a face of [h]; the names are plain
      if they and the new names [names] were. *)
  Record carried (names : list (option str)) (h h' : heap) : Prop := {
    cr_face : g_faces h <> [] -> g_faces h' <> [];
    cr_data : forall f, In f (g_faces h') -> exists g, In g (g_faces h) /\ f_data h' f = f_data h g;
    cr_names : (forall s, In (Some s) names -> plain_name s) -> plain_names h -> plain_names h'
  }.

  (** A sequence of calls. *)
  Fixpoint perform_all (l : list action) : M unit :=
    match l with [] => ret tt | a :: r => perform a ;;; perform_all r end.

  (** Each call of the sequence is allowed in the state left by the calls before it. *)
  Fixpoint all_allowed (h : heap) (l : list action) : Prop :=
    match l with
    | [] => True
    | a :: r => allowed h a /\ forall h', perform a h = (Ok tt, h') -> all_allowed h' r
    end.

  Fixpoint all_allowed_any (h : heap) (l : list action) : Prop :=
    match l with
    | [] => True
    | a :: r => allowed_any h a /\ forall h', perform a h = (Ok tt, h') -> all_allowed_any h' r
    end.
End Acts.
