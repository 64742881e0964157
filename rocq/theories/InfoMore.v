(** More about the counters of zones. *)

From Coq Require Import ZArith Bool Lia List.
From Verif Require Import Py Heap GridModel GridSpec DecompProofs ZamSpec Info.
Import ListNotations.
Open Scope list_scope.
Open Scope nat_scope.

Section More.
  Context {F : FloatOps}.

  Lemma zone_counters : forall h z, grid_ok h -> zone_lists_ok h -> In z (g_zones h) ->
    counts (fun n => exists f, In f (z_faces h z) /\ In n (f_nodes h f)) (g_nodes h) (zone_nodes_count h z) /\
    counts (fun e => exists f, In f (z_faces h z) /\ In e (f_edges h f)) (g_edges h) (zone_edges_count h z).
  Proof.
    intros h z (T & ZO) L Hz. destruct (L z Hz) as [L1 L2]. split.
    - exists (z_nodes h z). split; [|reflexivity]. eapply sublist_ext; [exact L1|]. intros n Hn. cbv beta. split.
      + intros (f & Hf & Ez). exists f. destruct (t_node_faces h T n Hn) as [_ I]. specialize (I f Hf).
        split; [apply (zo_faces h ZO z f Hz); auto|apply (t_nf h T n f Hn I); exact Hf].
      + intros (f & Hf & Hi). apply (zo_faces h ZO z f Hz) in Hf as [Hf Ez]. exists f. split; [apply (t_nf h T n f Hn Hf); exact Hi|exact Ez].
    - exists (z_edges h z). split; [|reflexivity]. eapply sublist_ext; [exact L2|]. intros e He. cbv beta. split.
      + intros (f & Hf & Ez). exists f. destruct (t_edge_faces h T e He) as (_ & _ & I). specialize (I f Hf).
        split; [apply (zo_faces h ZO z f Hz); auto|apply (t_ef h T e f He I); exact Hf].
      + intros (f & Hf & Hi). apply (zo_faces h ZO z f Hz) in Hf as [Hf Ez]. exists f. split; [apply (t_ef h T e f He Hf); exact Hi|exact Ez].
  Qed.
End More.
