(** Model of the exchange of data between neighbour zones, crys.py:69-144, as a
    transition system: every rank runs its part of the code, the messages are read
    from the send buffers and delivered by the MPI library at any time. *)

From Coq Require Import ZArith NArith Ascii String Bool List.
From Verif Require Import Py Heap GridModel Zam Mpi.
Import ListNotations.
Open Scope list_scope.
Open Scope nat_scope.

Section Exchange.
  Context {F : FloatOps}.

  (** Face data on one rank (every rank has its own copy of the grid). *)
  Definition fdata := nat -> dict str val.

  (** `face[name]`, face.py:41-49. *)
  Definition data_get (d : fdata) (f : nat) (name : str) : val :=
    match dget str_dec (d f) name with Some v => v | None => val0 end.

  (** `face[name] = v`, face.py:53-61. *)
  Definition data_set (d : fdata) (f : nat) (name : str) (v : val) : fdata :=
    upd d f (dset str_dec (d f) name v).

  (** The Zone attribute of faces in the exchange: an identifier for the faces of the
      rank's own zone (crys.py:211-212), a zone object for the others. *)
  Inductive zattr := ZoneObj (o : option nat) | ZoneId (i : Z).

  (** Zone attributes on the rank that owns zone [z], crys.py:211-212. *)
  Definition zone_attr (h : heap) (z f : nat) : zattr :=
    if existsb (Nat.eqb f) (z_faces h z) then ZoneId (z_id h z) else ZoneObj (f_zone h f).

  (** `f.Zone == self.Id`, zone.py:271, 273, 296, 298: a zone object or None is not
      equal to an integer. *)
  Definition attr_is (a : zattr) (i : Z) : bool :=
    match a with ZoneId k => (k =? i)%Z | ZoneObj _ => false end.

  (** Zone.get_real_face, zone.py:253-276. *)
  Definition get_real_face (h : heap) (z : nat) (e : Z) : res nat :=
    do ed <- py_get (z_edges h z) e;
    match e_faces h ed with
    | [f1; f2] =>
        if attr_is (zone_attr h z f1) (z_id h z) then Ok f1
        else if attr_is (zone_attr h z f2) (z_id h z) then Ok f2
        else Raise ERuntimeError
    | _ => Raise EAssertionError
    end.

  (** Zone.get_ghost_face, zone.py:278-301. *)
  Definition get_ghost_face (h : heap) (z : nat) (e : Z) : res nat :=
    do ed <- py_get (z_edges h z) e;
    match e_faces h ed with
    | [f1; f2] =>
        if attr_is (zone_attr h z f1) (z_id h z) then Ok f2
        else if attr_is (zone_attr h z f2) (z_id h z) then Ok f1
        else Raise ERuntimeError
    | _ => Raise EAssertionError
    end.

  (** Inner loop of put_to_superbuffer, crys.py:100-101. *)
  Fixpoint put_row (h : heap) (z : nat) (d : fdata) (name : str) (row : list val) (j : nat)
    (ids : list Z) : res (list val) :=
    match ids with
    | [] => Ok row
    | e :: r =>
        do f <- get_real_face h z e;
        do row' <- py_set row (Z.of_nat j) (data_get d f name);
        put_row h z d name row' (S j) r
    end.

  (** put_to_superbuffer, crys.py:87-101.  (The row is fetched once per neighbour.) *)
  Fixpoint put_rows (h : heap) (z : nat) (d : fdata) (name : str) (sb : list (list val)) (i : nat)
    (bs : list (nat * list Z)) : res (list (list val)) :=
    match bs with
    | [] => Ok sb
    | (_, ids) :: r =>
        do row <- py_get sb (Z.of_nat i);
        do row' <- put_row h z d name row 0 ids;
        do sb' <- py_set sb (Z.of_nat i) row';
        put_rows h z d name sb' (S i) r
    end.

  (** Inner loop of get_from_superbuffer, crys.py:143-144. *)
  Fixpoint get_row (h : heap) (z : nat) (name : str) (row : list val) (j : nat) (ids : list Z)
    (d : fdata) : res fdata :=
    match ids with
    | [] => Ok d
    | e :: r =>
        do f <- get_ghost_face h z e;
        do v <- py_get row (Z.of_nat j);
        get_row h z name row (S j) r (data_set d f name v)
    end.

  (** get_from_superbuffer, crys.py:130-144. *)
  Fixpoint get_rows (h : heap) (z : nat) (name : str) (rb : list (list val)) (i : nat)
    (bs : list (nat * list Z)) (d : fdata) : res fdata :=
    match bs with
    | [] => Ok d
    | (_, ids) :: r =>
        do row <- py_get rb (Z.of_nat i);
        do d' <- get_row h z name row 0 ids d;
        get_rows h z name rb (S i) r d'
    end.

  (** Steps of one rank: put_to_superbuffer, the loop of Isend (crys.py:116-119), the
      loop of Irecv (crys.py:121-125), Waitall (crys.py:127), get_from_superbuffer.
      The barrier request (crys.py:128) is never waited for and has no effect. *)
  Inductive op := OPut (name : str) | OSends | ORecvs | OWait | OGet (name : str).

  (** exchange, crys.py:69-85. *)
  Definition exchange (name : str) : list op := [OPut name; OSends; ORecvs; OWait; OGet name].

  (** State of a rank. *)
  Record rankst := mkRank {
    r_data : fdata;               (** face data *)
    r_send : list (list val);     (** send_sb *)
    r_recv : list (list val);     (** recv_sb *)
    r_prog : list op;             (** what remains to be done *)
    r_fail : option exn           (** raised exception *)
  }.

  (** State of the system: ranks; requests of Isend whose buffer has not been read yet
      (buffer row and count) by source and destination; messages on the way; requests
      of Irecv not completed yet by destination and source. *)
  Record sysst := mkSys {
    s_rank : nat -> rankst;
    s_pend : nat -> nat -> list (nat * nat);
    s_fly : nat -> nat -> list (list val);
    s_want : nat -> nat -> list (nat * nat)
  }.

  (** Update of a table with two indices (no code modelled). *)
  Definition upd2 {A} (m : nat -> nat -> A) (i j : nat) (v : A) : nat -> nat -> A :=
    upd m i (upd (m i) j v).

  (** Loops of Isend and Irecv over the neighbours, crys.py:116-125: request number i
      concerns row i of the buffer. *)
  Fixpoint post (q : nat -> list (nat * nat)) (i : nat) (bs : list (nat * list Z))
    : nat -> list (nat * nat) :=
    match bs with
    | [] => q
    | (k, ids) :: r => post (upd q k (q k ++ [(i, length ids)])) (S i) r
    end.

  (** All receive requests of a rank are completed: the condition under which Waitall
      returns, crys.py:127. *)
  Definition no_want (h : heap) (q : nat -> list (nat * nat)) : bool :=
    forallb (fun k => match q k with [] => true | _ => false end) (seq 0 (length (g_zones h))).

  (** Steps of the system: a rank executes its next operation (crys.py:83-85); the MPI
      library reads the buffer of the oldest Isend request (crys.py:119); it completes
      the oldest Irecv request with the oldest message (crys.py:124). *)
  Inductive act := ARun (r : nat) | AInject (src dst : nat) | ADeliver (src dst : nat).

  (** Replacement of the state of one rank (no code modelled). *)
  Definition with_rank (s : sysst) (r : nat) (x : rankst) : sysst :=
    mkSys (upd (s_rank s) r x) (s_pend s) (s_fly s) (s_want s).

  (** A rank stopped by an exception (no code modelled). *)
  Definition failed (x : rankst) (e : exn) : rankst :=
    mkRank (r_data x) (r_send x) (r_recv x) [] (Some e).

  (** One step of rank [r] (zone [z], borders [bs]); [None] = blocked or finished. *)
  Definition run_op (h : heap) (bs : list (nat * list Z)) (r z : nat) (s : sysst) : option sysst :=
    let x := s_rank s r in
    match r_prog x with
    | [] => None
    | OPut name :: p =>
        Some (with_rank s r
          match put_rows h z (r_data x) name (r_send x) 0 bs with
          | Ok sb => mkRank (r_data x) sb (r_recv x) p None
          | Raise e => failed x e
          end)
    | OSends :: p =>
        Some (mkSys (upd (s_rank s) r (mkRank (r_data x) (r_send x) (r_recv x) p None))
                    (upd (s_pend s) r (post (s_pend s r) 0 bs)) (s_fly s) (s_want s))
    | ORecvs :: p =>
        Some (mkSys (upd (s_rank s) r (mkRank (r_data x) (r_send x) (r_recv x) p None))
                    (s_pend s) (s_fly s) (upd (s_want s) r (post (s_want s r) 0 bs)))
    | OWait :: p =>
        if no_want h (s_want s r)
        then Some (with_rank s r (mkRank (r_data x) (r_send x) (r_recv x) p None))
        else None
    | OGet name :: p =>
        Some (with_rank s r
          match get_rows h z name (r_recv x) 0 bs (r_data x) with
          | Ok d => mkRank d (r_send x) (r_recv x) p None
          | Raise e => failed x e
          end)
    end.

  (** A step of the system, crys.py:83-85, 119, 124; [bs r] are the borders of rank [r].  Messages between two
      ranks do not overtake each other. *)
  Definition do_act (h : heap) (bs : nat -> list (nat * list Z)) (a : act) (s : sysst) : option sysst :=
    match a with
    | ARun r =>
        match nth_error (g_zones h) r with
        | Some z => run_op h (bs r) r z s
        | None => None
        end
    | AInject src dst =>
        match s_pend s src dst with
        | [] => None
        | (i, c) :: q =>
            match nth_error (r_send (s_rank s src)) i with
            | Some row => Some (mkSys (s_rank s) (upd2 (s_pend s) src dst q)
                                  (upd2 (s_fly s) src dst (s_fly s src dst ++ [firstn c row])) (s_want s))
            | None => None
            end
        end
    | ADeliver src dst =>
        match s_fly s src dst, s_want s dst src with
        | m :: fl, (i, c) :: w =>
            let x := s_rank s dst in
            match nth_error (r_recv x) i with
            | Some row =>
                let x' := if (length m <=? c)
                          then mkRank (r_data x) (r_send x) (list_set (r_recv x) i (m ++ skipn (length m) row))
                                 (r_prog x) (r_fail x)
                          else failed x ERuntimeError in
                Some (mkSys (upd (s_rank s) dst x') (s_pend s) (upd2 (s_fly s) src dst fl)
                        (upd2 (s_want s) dst src w))
            | None => None
            end
        | _, _ => None
        end
    end.

  (** A sequence of steps (no code modelled). *)
  Fixpoint do_acts (h : heap) (bs : nat -> list (nat * list Z)) (l : list act) (s : sysst) : option sysst :=
    match l with
    | [] => Some s
    | a :: r => match do_act h bs a s with Some s' => do_acts h bs r s' | None => None end
    end.

  (** The state before the exchanges of [names] (crys.py:208-216): nothing sent yet. *)
  Definition start (names : list str) (d : nat -> fdata) (sb rb : nat -> list (list val)) : sysst :=
    mkSys (fun r => mkRank (d r) (sb r) (rb r) (concat (map exchange names)) None)
      (fun _ _ => []) (fun _ _ => []) (fun _ _ => []).
End Exchange.
