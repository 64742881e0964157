(** Property theorems about the MPI program crys.py (C32, C33, C63). *)

From Coq Require Import ZArith NArith Ascii String Bool Lia List Permutation.
From Verif Require Import Py PyLemmas Heap GridModel GridSpec Zam Mpi Exchange ExchangeSpec ExchangeProofs
  Gather GatherProofs Samples SamplesMpi SamplesCrys.
Import ListNotations.
Open Scope list_scope.
Open Scope nat_scope.

(** C32.  One exchange of variable [name], any interleaving of the ranks and any moments at
    which the library reads the send buffers and delivers the messages.  No rank raises an
    exception; the ranks never block each other; every run is finite; when all ranks are
    through, on every rank own faces are unchanged, every ghost face has the value of
    its owner, nothing else changed, and no message is left over. *)
Theorem C32_exchange_delivers : forall {F : FloatOps} h bs name d sb rb,
  ready h -> borders_of h bs -> buffers_ok h bs sb -> buffers_ok h bs rb ->
  forall s, reached any_time h bs (start [name] d sb rb) s ->
    (forall r, r < length (g_zones h) -> r_fail (s_rank s r) = None) /\
    (finished h s \/ exists a s', do_act h bs a s = Some s') /\
    Acc (fun s2 s1 => exists a, do_act h bs a s1 = Some s2) s /\
    (finished h s -> exchanged h [name] d s /\
       forall r t, s_pend s r t = [] /\ s_fly s r t = [] /\ s_want s r t = []).
Proof.
  intros F h bs name d sb rb Hr Hb Hs Hv.
  exact (exchange_single h bs [name] d Hr Hb sb rb Hs Hv eq_refl).
Qed.
Print Assumptions C32_exchange_delivers.

Example C32_example : ready linked6 /\ borders_of linked6 bs6 /\ buffers_ok linked6 bs6 sb6 /\
  exists s, reached any_time linked6 bs6 (start [lit "T"] d6 sb6 sb6) s /\ finished linked6 s /\
    ghosts6 s "T" = (Some 102, Some 1, Some 205, Some 104)%Z.
Proof.
  split; [exact ready6|]. split; [exact borders6|]. split; [exact buffers6|].
  apply (run6_values [lit "T"] once6). vm_compute. reflexivity.
Qed.

(** C63.  Several exchanges one after another (crys.py:214-216) use the same buffers and the
    send requests are never waited for.  There is a run of the exchanges of T and Hi in which
    a ghost face ends with another value than the one of its owner. *)
Theorem C63_consecutive_exchanges_refuted :
  exists (h : @heap ZOps) bs names d sb rb s,
    ready h /\ borders_of h bs /\ buffers_ok h bs sb /\ buffers_ok h bs rb /\
    names = [lit "T"; lit "Hi"] /\
    reached any_time h bs (start names d sb rb) s /\ finished h s /\ ~ exchanged h names d s.
Proof.
  destruct (run6_values [lit "T"; lit "Hi"] twice6 "T" (Some 102, Some 1001, Some 205, Some 104)%Z) as (s & H1 & H2 & H3).
  { vm_compute. reflexivity. }
  exists linked6, bs6, [lit "T"; lit "Hi"], d6, sb6, sb6, s.
  split; [exact ready6|]. split; [exact borders6|]. split; [exact buffers6|]. split; [exact buffers6|].
  split; [reflexivity|]. split; [exact H1|]. split; [exact H2|]. exact (wrong6 s H3).
Qed.
Print Assumptions C63_consecutive_exchanges_refuted.

(** C63.  If no rank fills its send buffer again before the library has read it, any sequence
    of exchanges delivers the values of the owners: no exception, no blocking, every
    run is finite, and the final data is right for all exchanged variables. *)
Theorem C63_consecutive_exchanges_partial : forall {F : FloatOps} h bs names d sb rb,
  ready h -> borders_of h bs -> buffers_ok h bs sb -> buffers_ok h bs rb ->
  forall s, reached before_reuse h bs (start names d sb rb) s ->
    (forall r, r < length (g_zones h) -> r_fail (s_rank s r) = None) /\
    (finished h s \/ exists a s', before_reuse s a /\ do_act h bs a s = Some s') /\
    Acc (fun s2 s1 => exists a, before_reuse s1 a /\ do_act h bs a s1 = Some s2) s /\
    (finished h s -> exchanged h names d s /\
       forall r t, s_pend s r t = [] /\ s_fly s r t = [] /\ s_want s r t = []).
Proof.
  intros F h bs names d sb rb Hr Hb Hs Hv. exact (exchange_main h bs names d Hr Hb sb rb Hs Hv).
Qed.
Print Assumptions C63_consecutive_exchanges_partial.

(** C33.  What is written: the j-th face of zone i gets element number i * n + j of the
    gathered array, where n is the number of faces of zone i (nothing if the array is
    shorter); other variables and other faces are unchanged. *)
Theorem C33_gather_actual_partial : forall {F : FloatOps} h his d,
  grid_ok h -> Forall2 (fun z l => length l = length (z_faces h z)) (g_zones h) his ->
  exists d', gather_his h his d = Ok d' /\
    (forall f k, k <> lit "Hi" -> dget str_dec (d' f) k = dget str_dec (d f) k) /\
    (forall f, ~ In f (g_faces h) -> d' f = d f) /\
    (forall i z j f, nth_error (g_zones h) i = Some z -> nth_error (z_faces h z) j = Some f ->
       dget str_dec (d' f) (lit "Hi") =
         match nth_error (concat his) (i * length (z_faces h z) + j) with
         | Some v => Some v | None => dget str_dec (d f) (lit "Hi") end).
Proof. intros F h his d Hg Hm. exact (gather_ok h Hg his d Hm). Qed.
Print Assumptions C33_gather_actual_partial.

(** C33.  The j-th value sent by rank i is written to the j-th face of zone i provided
    the zones before zone i have together i times as many faces as zone i (in particular when
    all zones have the same number of faces). *)
Theorem C33_gather_returns_partial : forall {F : FloatOps} h his d,
  grid_ok h -> Forall2 (fun z l => length l = length (z_faces h z)) (g_zones h) his ->
  exists d', gather_his h his d = Ok d' /\
    (forall i z l j f, nth_error (g_zones h) i = Some z -> nth_error his i = Some l ->
       nth_error (z_faces h z) j = Some f ->
       list_sum (map (fun y => length (z_faces h y)) (firstn i (g_zones h))) = i * length (z_faces h z) ->
       dget str_dec (d' f) (lit "Hi") = nth_error l j) /\
    (forall f k, k <> lit "Hi" -> dget str_dec (d' f) k = dget str_dec (d f) k) /\
    (forall f, ~ In f (g_faces h) -> d' f = d f).
Proof. intros F h his d Hg Hm. exact (gather_good h Hg his d Hm). Qed.
Print Assumptions C33_gather_returns_partial.

(** C33 is false in general: with zones of 2, 3 and 1 faces the first face of zone 1 gets
    the value sent for its second face. *)
Theorem C33_gather_refuted :
  exists (h : @heap ZOps) his d d' i z l j f v,
    grid_ok h /\ Forall2 (fun z l => length l = length (z_faces h z)) (g_zones h) his /\
    gather_his h his d = Ok d' /\
    nth_error (g_zones h) i = Some z /\ nth_error (z_faces h z) j = Some f /\
    nth_error his i = Some l /\ nth_error l j = Some v /\
    dget str_dec (d' f) (lit "Hi") <> Some v.
Proof.
  pose (his := [[10; 11]; [20; 21; 22]; [30]]%Z).
  assert (Hm : @Forall2 nat (list Z) (fun z l => length l = length (z_faces linked6 z)) (g_zones linked6) his).
  { rewrite zones6. constructor; [vm_compute; reflexivity|]. constructor; [vm_compute; reflexivity|].
    constructor; [vm_compute; reflexivity|constructor]. }
  destruct (@gather_ok ZOps linked6 (proj1 ready6) his (d6 0) Hm) as (d' & E & _ & _ & H).
  exists linked6, his, (d6 0), d', 1, 1, [20; 21; 22]%Z, 0, 2, 20%Z.
  split; [exact (proj1 ready6)|]. split; [exact Hm|]. split; [exact E|].
  assert (E1 : nth_error (g_zones linked6) 1 = Some 1) by (rewrite zones6; reflexivity).
  assert (E2 : nth_error (z_faces linked6 1) 0 = Some 2) by (vm_compute; reflexivity).
  split; [exact E1|]. split; [exact E2|]. split; [reflexivity|]. split; [reflexivity|].
  rewrite (H 1 1 0 2 E1 E2).
  replace (length (z_faces linked6 1)) with 3 by (vm_compute; reflexivity). cbn. discriminate.
Qed.
Print Assumptions C33_gather_refuted.

Example C33_example : grid_ok linked6 /\
  @Forall2 nat (list Z) (fun z l => length l = length (z_faces linked6 z)) (g_zones linked6) [[10; 11]; [20; 21; 22]; [30]]%Z.
Proof.
  split; [exact (proj1 ready6)|]. rewrite zones6. constructor; [vm_compute; reflexivity|].
  constructor; [vm_compute; reflexivity|]. constructor; [vm_compute; reflexivity|constructor].
Qed.
