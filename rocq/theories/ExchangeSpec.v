(** Specification of the exchange between neighbour zones. *)

From Coq Require Import ZArith NArith Ascii String Bool List.
From Verif Require Import Py Heap GridSpec Zam Mpi Exchange.
Import ListNotations.
Open Scope list_scope.
Open Scope nat_scope.

Section ExchangeSpec.
  Context {F : FloatOps}.

  (** A decomposed grid as left by split (every rank has one). *)
  Definition ready (h : heap) : Prop :=
    grid_ok h /\ zone_lists_ok h /\ zone_ids_ok h /\ numbered h.

  (** The borders are those computed by get_mpi_borders on every rank. *)
  Definition borders_of (h : heap) (bs : nat -> list (nat * list Z)) : Prop :=
    exists a, zam_build h (g_edges h) (g_zones h) = Ok a /\
      forall r z, nth_error (g_zones h) r = Some z -> get_mpi_borders h r a z = Ok (bs r).

  (** The buffers have a row for every neighbour, long enough for all borders. *)
  Definition buffers_ok (h : heap) (bs : nat -> list (nat * list Z)) (sb : nat -> list (list val)) : Prop :=
    forall r, r < length (g_zones h) -> length (sb r) = length (bs r) /\
      forall row b, In row (sb r) -> In b (bs r) -> length (snd b) <= length row.

  (** States that can be reached when every step satisfies [ok]. *)
  Inductive reached (ok : sysst -> act -> Prop) (h : heap) (bs : nat -> list (nat * list Z)) (s0 : sysst)
    : sysst -> Prop :=
  | reached_start : reached ok h bs s0 s0
  | reached_step : forall s a s', reached ok h bs s0 s -> ok s a -> do_act h bs a s = Some s' ->
      reached ok h bs s0 s'.

  (** No restriction. *)
  Definition any_time (s : sysst) (a : act) : Prop := True.

  (** A rank does not fill its send buffer again before the buffer has been read. *)
  Definition before_reuse (s : sysst) (a : act) : Prop :=
    forall r name p, a = ARun r -> r_prog (s_rank s r) = OPut name :: p -> forall k, s_pend s r k = [].

  (** All ranks have executed everything. *)
  Definition finished (h : heap) (s : sysst) : Prop :=
    forall r, r < length (g_zones h) -> r_prog (s_rank s r) = [] /\ r_fail (s_rank s r) = None.

  (** Face [f] lies across a cross edge of zone [z]. *)
  Definition ghost (h : heap) (z f : nat) : Prop :=
    exists e g, In e (g_edges h) /\ (e_faces h e = [f; g] \/ e_faces h e = [g; f]) /\
      f_zone h g = Some z /\ f_zone h f <> Some z.

  (** Face [f] belongs to the zone of rank [j]. *)
  Definition owned_by (h : heap) (f j : nat) : Prop :=
    exists z, nth_error (g_zones h) j = Some z /\ f_zone h f = Some z.

  (** Data after the exchange of [names], starting with data [d]: on every rank own faces are
      unchanged, ghost faces have the values of their owners under the exchanged names,
      and nothing else is changed. *)
  Definition exchanged (h : heap) (names : list str) (d : nat -> fdata) (s : sysst) : Prop :=
    forall r z, nth_error (g_zones h) r = Some z ->
      (forall f, f_zone h f = Some z -> r_data (s_rank s r) f = d r f) /\
      (forall f j name, ghost h z f -> owned_by h f j -> In name names ->
         dget str_dec (r_data (s_rank s r) f) name = Some (data_get (d j) f name)) /\
      (forall f, ~ ghost h z f -> r_data (s_rank s r) f = d r f) /\
      (forall f name, ~ In name names ->
         dget str_dec (r_data (s_rank s r) f) name = dget str_dec (d r f) name).
End ExchangeSpec.
