(** Model of the program crys.py as a whole (crys.py:179-218): every rank splits the grid
    and calls the C part on the arrays of its zone, the ranks exchange data, and the root
    collects the heights of ice, remeshes the grid and stores it. *)

From Coq Require Import ZArith Reals Ascii String Bool List.
From Verif Require Import Py Heap GridModel Zam Mpi GridIO Driver Exchange ExchangeSpec Gather Programs.
From Verif Require Remesh.
Import ListNotations.
Open Scope list_scope.
Open Scope nat_scope.

Section Crys.
  Context {F : FloatOps}.
  (** [plus x k] is the float x + k, swim.cpp:18-20. *)
  Variable plus : val -> Z -> val.
  (** See Programs.v. *)
  Variables (real : val -> R) (near : R -> val).

  (** The names in crys.py:199-201, 214-216. *)
  Definition t_name : str := lit "T".
  Definition hw_name : str := lit "Hw".

  (** get_data, crys.py:15-29. *)
  Definition get_data (h : heap) (name : str) (f : nat) : res val :=
    match dget str_dec (f_data h f) name with Some v => Ok v | None => Raise EKeyError end.

  (** `pool.map(functools.partial(get_data, name=name), z.Faces)`, crys.py:199-201.  (The pool
      keeps the order; that the work is done by several processes is left out.) *)
  Definition column (h : heap) (name : str) (z : nat) : res (list val) := rmap (get_data h name) (z_faces h z).

  (** `a[i] += k`; writing outside of the array is undefined behaviour in C, here an
      exception. *)
  Definition add_at (a : list val) (i : nat) (k : Z) : res (list val) :=
    match nth_error a i with Some x => Ok (list_set a i (plus x k)) | None => Raise EIndexError end.

  (** The loop of hi, swim.cpp:16-21, from [i], [k] passes. *)
  Fixpoint hi_loop (k i : nat) (a1 a2 a3 : list val) : res (list val * list val * list val) :=
    match k with
    | O => Ok (a1, a2, a3)
    | S k =>
        do b1 <- add_at a1 i 1;
        do b2 <- add_at a2 i 2;
        do b3 <- add_at a3 i 3;
        hi_loop k (S i) b1 b2 b3
    end.

  (** swim.hi, swim.cpp:9-23. *)
  Definition swim_hi (a1 a2 a3 : list val) : res (list val * list val * list val) :=
    hi_loop (length a1) 0 a1 a2 a3.

  (** What a rank has before the exchanges (crys.py:194-209): its zone, the arrays T, HIS
      and HW after the call of the C part, the borders and the width of the buffers. *)
  Record prepared := mkPrep {
    pr_zone : nat; pr_t : list val; pr_hi : list val; pr_hw : list val;
    pr_borders : list (nat * list Z); pr_width : nat }.

  (** crys.py:205-207: nothing is done on one rank. *)
  Definition rank_borders (h : heap) (size rank : nat) (a : zam) (z : nat) : res (list (nat * list Z) * nat) :=
    if 1 <? size then
      do bs <- get_mpi_borders h rank a z;
      do w <- py_max (map (fun b => length (snd b)) bs);
      Ok (bs, w)
    else Ok ([], 0).

  (** crys.py:194-209 on rank [rank] of [size]: [text] is the text of the grid file, [rf] is
      1.0; also the text of OUT_DAT_FILE is returned. *)
  Definition prepare (text : str) (rf : val) (size rank : nat) : M (written * prepared) :=
    w <- split (Some text) (lit ".dat") (lit "n" ++ nat_str size) [] rf ToDat ;;
    h <- gets (fun h => h) ;;
    a <- lift (zam_build h (g_edges h) (g_zones h)) ;;
    z <- lift (py_get (g_zones h) (Z.of_nat rank)) ;;
    his <- lift (column h hi_name z) ;;
    t <- lift (column h t_name z) ;;
    hw <- lift (column h hw_name z) ;;
    r <- lift (swim_hi t his hw) ;;
    b <- lift (rank_borders h size rank a z) ;;
    let '(t', his', hw') := r in
    ret (w, mkPrep z t' his' hw' (fst b) (snd b)).

  (** The variables that are exchanged, crys.py:214-216. *)
  Definition exchanged_names : list str := [t_name; hi_name; hw_name].

  (** `np.empty((len(mpi_borders), max_length))`, crys.py:208-209: any contents. *)
  Definition buffer_for (p : prepared) (sb : list (list val)) : Prop :=
    length sb = length (pr_borders p) /\ Forall (fun row => length row = pr_width p) sb.

  (** The system of ranks before the exchanges, crys.py:214-216.  All ranks have loaded the
      grid [h] with all of its faces; the arrays of the C part are not written back. *)
  Definition before_exchanges (h : heap) (sb rb : nat -> list (list val)) : sysst :=
    start exchanged_names (fun _ => f_data h) sb rb.

  (** remesh on the root, crys.py:146-176: [his] are the arrays of the ranks. *)
  Definition collect (his : list (list val)) : M unit :=
    h <- gets (fun h => h) ;;
    d <- lift (gather_his h his (f_data h)) ;;
    modify (fun h => set_f_data h d).
  (** ... with the remeshing and the stored text, crys.py:175-176.  (The attribute Zone of
      faces, changed by crys.py:211-212, is not read here.) *)
  Definition finish (fix_nodes : bool) (o : Remesh.options) (his : list (list val)) : M str :=
    collect his ;;;
    remesh_grid real near fix_nodes o ;;;
    h <- gets (fun h => h) ;;
    lift (store h).

  (** The face data of the root before remesh, crys.py:204-216: on one rank nothing is
      exchanged; [ok] restricts the moments at which steps of the exchange are made. *)
  Definition root_data (ok : sysst -> act -> Prop) (h : heap) (size : nat) (ps : nat -> prepared) (d : fdata) : Prop :=
    (size <= 1 /\ d = f_data h) \/
    (1 < size /\ exists sb rb s,
       (forall r, r < size -> buffer_for (ps r) (sb r) /\ buffer_for (ps r) (rb r)) /\
       reached ok h (fun r => pr_borders (ps r)) (before_exchanges h sb rb) s /\ finished h s /\
       d = r_data (s_rank s 0)).

  (** A run of the program on [size] ranks, crys.py:179-218; [r] is the text of the stored file or
      the exception raised on the root after the exchanges. *)
  Definition crys_run (ok : sysst -> act -> Prop) (text : str) (rf : val) (size : nat) (h0 : heap)
    (fix_nodes : bool) (o : Remesh.options) (r : res str) : Prop :=
    exists w ps h d, (forall rank, rank < size -> prepare text rf size rank h0 = (Ok (w, ps rank), h)) /\
      root_data ok h size ps d /\
      fst (finish fix_nodes o (map (fun r => pr_hi (ps r)) (seq 0 size)) (set_f_data h d)) = r.
End Crys.
