(** Concrete data for the exchange between the three zones of the sample strip. *)

From Coq Require Import ZArith NArith Ascii String Bool Lia List Permutation.
From Verif Require Import Py PyLemmas Heap GridModel GridSpec Zam Mpi Exchange ExchangeSpec ExchangeProofs
  Samples SamplesMpi.
Import ListNotations.
Open Scope list_scope.
Open Scope nat_scope.

(** Borders of the three ranks. *)
Definition bs6 (r : nat) : list (nat * list Z) :=
  nth r [[(1, [3%Z])]; [(0, [0%Z]); (2, [5%Z])]; [(1, [0%Z])]] [].

(** Data: on rank r face f has T = 100 r + f and Hi = 1000 + 100 r + f. *)
Definition d6 (r : nat) : @fdata ZOps := fun f =>
  [(lit "T", Z.of_nat (100 * r + f)); (lit "Hi", (1000 + Z.of_nat (100 * r + f))%Z)].

(** Buffers. *)
Definition sb6 (r : nat) : list (list (@val ZOps)) := nth r [[[0%Z]]; [[0%Z]; [0%Z]]; [[0%Z]]] [].

Lemma ready6 : ready linked6.
Proof. destruct linked6_ok as (H1 & H2 & H3). exact (conj H1 (conj H2 (conj H3 linked6_numbered))). Qed.

Lemma zones6 : g_zones linked6 = [0; 1; 2].
Proof. vm_compute. reflexivity. Qed.

Lemma borders6_gen : forall {F : FloatOps} h bs oa, oa = zam_build h (g_edges h) (g_zones h) -> g_zones h = [0; 1; 2] ->
  match oa with
  | Ok a => get_mpi_borders h 0 a 0 = Ok (bs 0) /\ get_mpi_borders h 1 a 1 = Ok (bs 1) /\
            get_mpi_borders h 2 a 2 = Ok (bs 2)
  | Raise _ => False
  end -> borders_of h bs.
Proof.
  intros F h bs [a|e] Ea Hz H; [|contradiction]. exists a. split; [auto|]. destruct H as (H0 & H1 & H2).
  intros r z E. rewrite Hz in E. destruct r as [|[|[|r]]]; cbn in E; try (injection E as <-; assumption). destruct r; discriminate.
Qed.

Lemma borders6 : borders_of linked6 bs6.
Proof.
  apply (borders6_gen _ _ _ eq_refl zones6). vm_compute. split; [reflexivity|split; reflexivity].
Qed.

Lemma buffers6 : buffers_ok linked6 bs6 sb6.
Proof.
  intros r Hr. rewrite zones6 in Hr. assert (Hr3 : r < 3) by exact Hr. clear Hr.
  destruct r as [|[|[|r]]]; [| | |lia]; cbn; (split; [reflexivity|]);
    intros row b Hrow Hb; repeat (destruct Hrow as [<-|Hrow]); try destruct Hrow;
    repeat (destruct Hb as [<-|Hb]); try destruct Hb; cbn; lia.
Qed.

(** One exchange of T, some schedule. *)
Definition once6 : list act :=
  [ARun 0; ARun 0; ARun 0; ARun 1; ARun 1; AInject 1 0; ADeliver 1 0; ARun 0; ARun 0;
   AInject 0 1; ARun 1; ADeliver 0 1; ARun 2; ARun 2; ARun 2; AInject 1 2; ADeliver 1 2; ARun 2; ARun 2;
   AInject 2 1; ADeliver 2 1; ARun 1; ARun 1].

(** Exchanges of T and Hi: the message 0 -> 1 of the first exchange is read from the
    buffer only when rank 0 has already filled it for the second one. *)
Definition twice6 : list act :=
  [ARun 0; ARun 0; ARun 0; ARun 1; ARun 1; ARun 1; ARun 2; ARun 2; ARun 2;
   AInject 1 0; ADeliver 1 0; AInject 1 2; ADeliver 1 2; AInject 2 1; ADeliver 2 1;
   ARun 0; ARun 0; ARun 0;
   AInject 0 1; ADeliver 0 1; ARun 1; ARun 1; ARun 2; ARun 2;
   ARun 0; ARun 0; ARun 1; ARun 1; ARun 1; ARun 2; ARun 2; ARun 2;
   AInject 0 1; ADeliver 0 1; AInject 1 0; ADeliver 1 0; AInject 1 2; ADeliver 1 2; AInject 2 1; ADeliver 2 1;
   ARun 0; ARun 0; ARun 1; ARun 1; ARun 2; ARun 2].

(** All three ranks have executed everything. *)
Definition done6 (s : @sysst ZOps) : bool :=
  forallb (fun r => match r_prog (s_rank s r), r_fail (s_rank s r) with [], None => true | _, _ => false end) [0; 1; 2].

Lemma done6_ok : forall s, done6 s = true -> finished linked6 s.
Proof.
  intros s H r Hr. rewrite zones6 in Hr. assert (Hr3 : r < 3) by exact Hr. clear Hr. unfold done6 in H. rewrite forallb_forall in H.
  specialize (H r). destruct (r_prog (s_rank s r)), (r_fail (s_rank s r)); try auto;
  (assert (In r [0; 1; 2]) by (simpl; lia)); specialize (H H0); discriminate.
Qed.

(** Value of a variable of a face on a rank. *)
Definition value6 (s : @sysst ZOps) (r f : nat) (name : string) : option Z :=
  dget str_dec (r_data (s_rank s r) f) (lit name).

Lemma run6 : forall names l chk, 
  match do_acts linked6 bs6 l (start names d6 sb6 sb6) with Some s => done6 s && chk s | None => false end = true ->
  exists s, reached any_time linked6 bs6 (start names d6 sb6 sb6) s /\ finished linked6 s /\ chk s = true.
Proof.
  intros names l chk H. destruct (do_acts linked6 bs6 l (start names d6 sb6 sb6)) as [s|] eqn:E; [|discriminate].
  apply andb_prop in H as [H1 H2]. exists s. split; [|split; [apply done6_ok; auto|auto]].
  eapply do_acts_reached; [constructor|exact E].
Qed.

(** Test of four values. *)
Definition quadb (q w : option Z * option Z * option Z * option Z) : bool :=
  let eqb a b := match a, b with Some x, Some y => (x =? y)%Z | None, None => true | _, _ => false end in
  let '(a, b, c, d) := q in let '(a', b', c', d') := w in eqb a a' && eqb b b' && eqb c c' && eqb d d'.

Lemma quadb_ok : forall q w, quadb q w = true -> q = w.
Proof.
  intros [[[a b] c] d] [[[a' b'] c'] d'] H. unfold quadb in H.
  apply andb_prop in H as [H E4]. apply andb_prop in H as [H E3]. apply andb_prop in H as [E1 E2].
  assert (A : forall x y : option Z, match x, y with Some u, Some v => (u =? v)%Z | None, None => true | _, _ => false end = true -> x = y).
  { intros [x|] [y|] E; try discriminate; auto. apply Z.eqb_eq in E. congruence. }
  apply A in E1, E2, E3, E4. congruence.
Qed.

(** Values of the ghost faces on the three ranks. *)
Definition ghosts6 (s : @sysst ZOps) (name : string) : option Z * option Z * option Z * option Z :=
  (value6 s 0 2 name, value6 s 1 1 name, value6 s 1 5 name, value6 s 2 4 name).

Lemma run6_values : forall names l name w,
  match do_acts linked6 bs6 l (start names d6 sb6 sb6) with
  | Some s => done6 s && quadb (ghosts6 s name) w | None => false end = true ->
  exists s, reached any_time linked6 bs6 (start names d6 sb6 sb6) s /\ finished linked6 s /\ ghosts6 s name = w.
Proof.
  intros names l name w H. destruct (run6 names l _ H) as (s & H1 & H2 & H3). exists s.
  split; [exact H1|]. split; [exact H2|]. apply quadb_ok. exact H3.
Qed.

Lemma ghost6 : ghost linked6 1 1 /\ owned_by linked6 1 0.
Proof.
  split.
  - exists 3, 2. split; [|split; [|split]].
    + replace (g_edges linked6) with [0; 1; 2; 3; 4; 5; 6; 7; 8; 9; 10; 11; 12] by (vm_compute; reflexivity). simpl; auto.
    + left. vm_compute. reflexivity.
    + vm_compute. reflexivity.
    + replace (f_zone linked6 1) with (Some 0) by (vm_compute; reflexivity). discriminate.
  - exists 0. split; [rewrite zones6; reflexivity|]. vm_compute. reflexivity.
Qed.

Lemma wrong_gen : forall {F : FloatOps} (h : heap) names d s r z f j name v, exchanged h names d s ->
  nth_error (g_zones h) r = Some z -> ghost h z f -> owned_by h f j -> In name names ->
  dget str_dec (r_data (s_rank s r) f) name = Some v -> data_get (d j) f name = v.
Proof. intros F h names d s r z f j name v Hx Hz Hg Ho Hn E. destruct (Hx r z Hz) as (_ & H & _). rewrite (H f j name Hg Ho Hn) in E. congruence. Qed.

Lemma wrong6 : forall s, ghosts6 s "T" = (Some 102, Some 1001, Some 205, Some 104)%Z ->
  ~ exchanged linked6 [lit "T"; lit "Hi"] d6 s.
Proof.
  intros s E Hx. unfold ghosts6 in E. injection E as _ E _ _.
  assert (Ez : nth_error (g_zones linked6) 1 = Some 1) by (rewrite zones6; reflexivity).
  pose proof (wrong_gen linked6 _ d6 s 1 1 1 0 (lit "T") 1001%Z Hx Ez (proj1 ghost6) (proj2 ghost6) (or_introl eq_refl) E) as H.
  vm_compute in H. discriminate.
Qed.
