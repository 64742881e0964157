(** Specification vocabulary for the program crys.py as a whole. *)

From Coq Require Import ZArith Ascii String Bool List.
From Verif Require Import Py Heap GridSpec MpiSpec ZamSpec DriverSpec ExchangeSpec.
Import ListNotations.
Open Scope list_scope.
Open Scope nat_scope.

Section CrysSpec.
  Context {F : FloatOps}.
  Variable plus : val -> Z -> val.

  (** The variables that the program works with. *)
  Definition work_vars : list str := [lit "T"; lit "Hi"; lit "Hw"].

  (** Every face has values of the variables. *)
  Definition all_have (h : heap) (names : list str) : Prop :=
    forall f k, In f (g_faces h) -> In k names -> exists v, dget str_dec (f_data h f) k = Some v.

  (** [h'] is the grid [hl] divided between [size] zones: nodes, edges and faces are the same
      objects, no variable but the recovery factor differs, and the first zones may have
      one face more than the last ones. *)
  Definition in_zones (hl : heap) (size : nat) (h' : heap) : Prop :=
    ready h' /\ length (g_zones h') = size /\
    g_name h' = g_name hl /\ g_nodes h' = g_nodes hl /\ g_edges h' = g_edges hl /\ g_faces h' = g_faces hl /\
    n_p h' = n_p hl /\ n_faces h' = n_faces hl /\ e_faces h' = e_faces hl /\ f_nodes h' = f_nodes hl /\
    (forall f k, k <> recovery_factor -> dget str_dec (f_data h' f) k = dget str_dec (f_data hl f) k) /\
    (forall i z, nth_error (g_zones h') i = Some z ->
       length (z_faces h' z) = length (g_faces hl) / size + (if i <? length (g_faces hl) mod size then 1 else 0)).

  (** Zones [z] and [y] have a common edge. *)
  Definition touching (h : heap) (z y : nat) : Prop := exists e, In e (g_edges h) /\ joins h z y e.

  (** The grid [hl] with 2 added to the height of ice on every face. *)
  Definition iced (hl : heap) : heap :=
    set_f_data hl (fun f => if in_dec Nat.eq_dec f (g_faces hl)
      then dset str_dec (f_data hl f) (lit "Hi") (plus (var_value hl f (lit "Hi")) 2) else f_data hl f).

  (** [hc] is the grid [hl] with other heights of ice: the root has the arrays of the zones of
      [hz] one after another and takes for the face number [j] of zone [i], which has c faces,
      the element i * c + j; the elements are the heights of the faces increased by 2. *)
  Definition collected (hl hz hc : heap) : Prop :=
    hc = set_f_data hl (f_data hc) /\
    (forall f k, k <> lit "Hi" -> dget str_dec (f_data hc f) k = dget str_dec (f_data hl f) k) /\
    (forall f, ~ In f (g_faces hl) -> f_data hc f = f_data hl f) /\
    (forall i z j f, nth_error (g_zones hz) i = Some z -> nth_error (z_faces hz z) j = Some f ->
       exists g, nth_error (flat_map (z_faces hz) (g_zones hz)) (i * length (z_faces hz z) + j) = Some g /\
         var_value hc f (lit "Hi") = plus (var_value hl g (lit "Hi")) 2).

  (** The value of a variable in the stored file: heights are zero, a missing recovery factor
      is [rf], everything else is as in the grid [hl]. *)
  Definition stored_value (rf zero : val) (hl : heap) (f : nat) (k : str) : val :=
    if str_dec k (lit "Hi") then zero
    else if str_dec k recovery_factor
      then match dget str_dec (f_data hl f) recovery_factor with Some v => v | None => rf end
      else var_value hl f k.
End CrysSpec.
