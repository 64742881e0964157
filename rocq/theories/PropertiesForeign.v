(** Properties of lines that mean nothing to Grid.load: C129.

    Model: GridIO.v, Stamps.v, Programs.v.  Specification vocabulary: FileSpec.v, ContentsSpec.v, ForeignSpec.v. *)

From Coq Require Import ZArith Ascii String Bool List.
From Verif Require Import Py Heap GridModel Mpi GridIO FileSpec Utils Driver Stamps Programs Remesh
  Samples SamplesIO ContentsSpec ContentsCases ForeignSpec ForeignProofs.
Import ListNotations.
Open Scope list_scope.
Open Scope nat_scope.

(* ================================================================== *)
(** C129.  A line between the zones that is not a comment and has none of the three keys is never passed over: wherever it
    stands, the load raises Exception.  What came before it stays in the grid, the earlier contents of the grid do not: the
    title, the zones, the faces with their values and corners, but no edge. *)
Theorem C129_stops : forall {F : FloatOps} t ps evs x rest, pieces [] ps evs -> file_lines t = flat_map lines_of_piece ps ++ x :: rest -> foreign_line x ->
  forall merge h, exists h', load merge t h = (Raise EException, h') /\ holds_zones (zones_of evs) h' /\ g_edges h' = [] /\
    (forall f, In f (g_faces h') -> f_edges h' f = []) /\ g_name h' = match title_in evs with Some s => s | None => g_name h end.
Proof. exact @foreign_main. Qed.
Print Assumptions C129_stops.

(** C129.  A blank line is such a line. *)
Theorem C129_blank : forall l, blank_line l -> foreign_line l.
Proof. exact blank_foreign. Qed.
Print Assumptions C129_blank.

(** C129.  And split and remesh, which load the file first, give up and have no files to write. *)
Theorem C129_split : forall {F : FloatOps} t ps evs x rest, pieces [] ps evs -> file_lines t = flat_map lines_of_piece ps ++ x :: rest -> foreign_line x ->
  forall stem sf strat fixed rf h, fst (split_run stem (Some t) sf strat fixed rf h) = Raise EException.
Proof.
  intros F t ps evs x rest P E H. apply foreign_split. intros h. destruct (foreign_main t ps evs x rest P E H true h) as (h' & K & _). rewrite K. reflexivity.
Qed.
Print Assumptions C129_split.
Theorem C129_remesh : forall {F : FloatOps} t ps evs x rest, pieces [] ps evs -> file_lines t = flat_map lines_of_piece ps ++ x :: rest -> foreign_line x ->
  forall real near fix_nodes o h, fst (remesh_file real near fix_nodes o t h) = Raise EException.
Proof.
  intros F t ps evs x rest P E H. apply foreign_remesh. intros h. destruct (foreign_main t ps evs x rest P E H true h) as (h' & K & _). rewrite K. reflexivity.
Qed.
Print Assumptions C129_remesh.

(** The plate with a blank line (a tab and a space) between the two zones, and with a line of another program at the end. *)
Example C129_example :
  @pieces ZOps [] two_pieces [ETitle (lit "plate"); EZone zoneA; EZone zoneB] /\
  file_lines (two_zones ++ ln "TEXT X=1") = flat_map lines_of_piece two_pieces ++ [ln "TEXT X=1"] /\ foreign_line (ln "TEXT X=1") /\
  blank_line ["009"%char; " "%char; nl].
Proof.
  split; [exact two_pieces_ok|]. split; [vm_compute; reflexivity|]. split.
  - split; [discriminate|]. intros key Hk. apply AnsysText.contains_not. destruct Hk as [<-|[<-|[<-|[]]]]; reflexivity.
  - intros c [<-|[<-|[<-|[]]]]; auto.
Qed.
