(** A strict reader of the text of a file for the solver: every heading must stand in its place,
    every block must have the number of lines and words announced at the head of the file, every
    local number must be less than the announced number of objects, and nothing may be left at
    the end.  Nothing here refers to the modelled functions which write the text. *)

From Coq Require Import ZArith Ascii String Bool List.
From Verif Require Import Py Heap Mpi CycleSpec.
Import ListNotations.
Open Scope list_scope.
Open Scope nat_scope.

Section SolverSpec.
  Context {F : FloatOps}.

  (** A reader takes lines from the front of a list of lines, or refuses. *)
  Definition reader (A : Type) : Type := list str -> option (A * list str).
  Definition done {A} (x : A) : reader A := fun ls => Some (x, ls).
  Definition next {A B} (p : reader A) (k : A -> reader B) : reader B := fun ls =>
    match p ls with Some (x, r) => k x r | None => None end.

  (** One line that [g] understands. *)
  Definition line {A} (g : str -> option A) : reader A := fun ls =>
    match ls with l :: r => match g l with Some x => Some (x, r) | None => None end | [] => None end.

  (** Exactly this line. *)
  Definition heading (s : str) : reader unit := line (fun l => if str_dec l (s ++ [nl]) then Some tt else None).

  (** [k] lines that [g] understands. *)
  Fixpoint rows {A} (k : nat) (g : str -> option A) : reader (list A) :=
    match k with
    | O => done []
    | S k => next (line g) (fun x => next (rows k g) (fun xs => done (x :: xs)))
    end.

  (** What stands behind [p], what stands before [q]. *)
  Fixpoint behind (p s : str) : option str :=
    match p, s with
    | [], _ => Some s
    | a :: p, b :: s => if Ascii.eqb a b then behind p s else None
    | _ :: _, [] => None
    end.
  Definition before (q s : str) : option str := option_map (@rev ascii) (behind (rev q) (rev s)).

  (** A word of digits and its value. *)
  Definition number (w : str) : option Z := if all_digits w then Some (digits_val w) else None.

  Fixpoint all_of {A B} (g : A -> option B) (l : list A) : option (list B) :=
    match l with
    | [] => Some []
    | x :: l => match g x, all_of g l with Some y, Some ys => Some (y :: ys) | _, _ => None end
    end.

  (** `KEY=n`. *)
  Definition counted (key : str) (l : str) : option nat :=
    match behind key l with
    | Some s => match split_ws s with [w] => option_map Z.to_nat (number w) | _ => None end
    | None => None
    end.

  (** [k] floating point numbers. *)
  Definition reals (k : nat) (l : str) : option (list val) :=
    if Nat.eqb (length (split_ws l)) k then all_of prs (split_ws l) else None.

  (** [k] natural numbers. *)
  Definition numbers (k : nat) (l : str) : option (list Z) :=
    if Nat.eqb (length (split_ws l)) k then all_of number (split_ws l) else None.

  (** A number of an object of a list of [n] objects. *)
  Definition below (n : nat) (w : str) : option Z :=
    match number w with Some k => if (k <? Z.of_nat n)%Z then Some k else None | None => None end.

  (** [k] numbers of objects of a list of [n] objects. *)
  Definition places (k n : nat) (l : str) : option (list Z) :=
    if Nat.eqb (length (split_ws l)) k then all_of (below n) (split_ws l) else None.

  (** `[zone] edge edge ... edge`, where there are [n] edges. *)
  Definition border (n : nat) (l : str) : option (nat * list Z) :=
    match behind (lit "[") l with
    | Some s =>
        match split_on "]"%char s with
        | [w; r] => match number w, all_of (below n) (split_ws r) with
                    | Some k, Some ks => Some (Z.to_nat k, ks)
                    | _, _ => None
                    end
        | _ => None
        end
    | None => None
    end.

  (** `TITLE="..."`. *)
  Definition title (l : str) : option str :=
    match behind (lit "TITLE=""") l with Some s => before (lit """" ++ [nl]) s | None => None end.

  (** The sum of the numbers of edges of the borders must be the announced one. *)
  Definition total (x : nat) (bs : list (nat * list Z)) : reader unit := fun ls =>
    if Nat.eqb (list_sum (map (fun b => length (snd b)) bs)) x then Some (tt, ls) else None.

  Definition cry_reader : reader mpi_file :=
    next (line title) (fun t =>
    next (heading (lit "VARIABLES=""X"", ""Y"", ""Z"", ""GloId"", ""T"", ""Hw"", ""Hi"", ""HTC"", ""Beta"", ""MImp2"", ""Vd2"", ""TauX"", ""TauY"", ""TauZ"", ""RecoveryFactor""")) (fun _ =>
    next (line (counted (lit "MPI="))) (fun rank =>
    next (line (counted (lit "NODES="))) (fun n =>
    next (line (counted (lit "EDGES="))) (fun e =>
    next (line (counted (lit "CROSS-EDGES="))) (fun x =>
    next (line (counted (lit "FACES="))) (fun f =>
    next (heading (lit "NODES COORDINATES:")) (fun _ =>
    next (rows 3 (reals n)) (fun coords =>
    next (heading (lit "FACES DATA:")) (fun _ =>
    next (line (numbers f)) (fun ids =>
    next (rows 11 (reals f)) (fun data =>
    next (heading (lit "FACE-NODE CONNECTIVITY LIST:")) (fun _ =>
    next (rows f (places 3 n)) (fun fn =>
    next (heading (lit "FACE-EDGE CONNECTIVITY LIST:")) (fun _ =>
    next (rows f (places 3 e)) (fun fe =>
    next (heading (lit "EDGE-NODE CONNECTIVITY LIST:")) (fun _ =>
    next (rows e (places 2 n)) (fun en =>
    next (line (counted (lit "MPI-BORDERS="))) (fun b =>
    next (rows b (border e)) (fun bs =>
    next (total x bs) (fun _ =>
    done (mkMpi t rank n e x f coords ids data fn fe en b bs)))))))))))))))))))))).

  (** The contents of a file with the text [t]. *)
  Definition read_cry (t : str) : option mpi_file :=
    match cry_reader (file_lines t) with Some (m, []) => Some m | _ => None end.

  (** `base_NNNNN_ts` and a suffix: NNNNN is the number [i] of the zone with at least five digits. *)
  Definition file_name (base ts sf : str) (i : nat) (nm : str) : Prop :=
    exists w, nm = base ++ lit "_" ++ w ++ lit "_" ++ ts ++ sf /\ all_digits w = true /\
      digits_val w = Z.of_nat i /\ 5 <= length w /\ ((Z.of_nat i < 100000)%Z -> length w = 5).

  (** The variables of the file behind the number of a face. *)
  Definition cry_vars : list str :=
    map lit ["T"; "Hw"; "Hi"; "HTC"; "Beta"; "MImp2"; "Vd2"; "TauX"; "TauY"; "TauZ"; "RecoveryFactor"]%string.

  (** The [j]-th face of the file has for each variable its value in [d], zero when [d] has none. *)
  Definition cry_data (m : mpi_file) (j : nat) (d : dict str val) : Prop :=
    length (mf_data m) = length cry_vars /\
    forall c v, nth_error cry_vars c = Some v -> exists row, nth_error (mf_data m) c = Some row /\
      nth_error row j = Some (match dget str_dec d v with Some x => x | None => val0 end).

  (** The solver, given the text [c] of a file, writes the text [t] with the rows [tab] (CycleSpec.v). *)
  Definition solved (vars : list str) (c t : str) (tab : list (Z * list val)) : Prop :=
    exists m, read_cry c = Some m /\ computed vars m t tab.
End SolverSpec.
