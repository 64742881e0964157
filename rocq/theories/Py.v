(** Python prelude: the pieces of the Python language and standard library
    that the modelled code relies on.

    Nothing in this file models a particular line of /repo; every definition
    models a construct of Python itself that the cited code uses. *)

From Coq Require Import ZArith NArith Ascii String Bool Lia List.
Import ListNotations.
Open Scope list_scope.

(* ------------------------------------------------------------------ *)
(** * Exceptions *)

(** Python exception classes raised (explicitly or implicitly) by the modelled
    code; payload texts are dropped.  [EException] is `raise Exception(...)`.
    [EOutOfFuel] is not a Python exception: it marks exhausted fuel of a
    modelled `while` loop and is shown to be impossible. *)
Inductive exn : Set :=
| EException | EValueError | EIndexError | EKeyError | EAttributeError
| ETypeError | EZeroDivisionError | EAssertionError | ERuntimeError | ENameError
| EOutOfFuel.

(** Result of a computation: a value or a raised exception. *)
Inductive res (A : Type) : Type :=
| Ok (a : A)
| Raise (e : exn).
Arguments Ok {A} a.
Arguments Raise {A} e.

(** Sequencing of computations that may raise. *)
Definition rbind {A B} (r : res A) (k : A -> res B) : res B :=
  match r with Ok a => k a | Raise e => Raise e end.

Notation "'do' x <- r ; k" := (rbind r (fun x => k))
  (at level 200, x name, r at level 100, k at level 200, only parsing).

(** List comprehension `[f(x) for x in l]` with an [f] that may raise. *)
Fixpoint rmap {A B} (f : A -> res B) (l : list A) : res (list B) :=
  match l with
  | [] => Ok []
  | x :: r => do y <- f x; do ys <- rmap f r; Ok (y :: ys)
  end.

(* ------------------------------------------------------------------ *)
(** * Lists *)

(** Python index to offset: `l[i]` with negative [i] counts from the end;
    [None] when Python raises IndexError. *)
Definition py_index (len : nat) (i : Z) : option nat :=
  if (0 <=? i)%Z
  then if (i <? Z.of_nat len)%Z then Some (Z.to_nat i) else None
  else if (0 <=? Z.of_nat len + i)%Z then Some (Z.to_nat (Z.of_nat len + i)) else None.

(** `l[i]`. *)
Definition py_get {A} (l : list A) (i : Z) : res A :=
  match py_index (length l) i with
  | None => Raise EIndexError
  | Some k => match nth_error l k with Some x => Ok x | None => Raise EIndexError end
  end.

(** Replacement of the element at offset [k] (no change beyond the end). *)
Fixpoint list_set {A} (l : list A) (k : nat) (v : A) : list A :=
  match l, k with
  | [], _ => []
  | _ :: r, O => v :: r
  | x :: r, S k' => x :: list_set r k' v
  end.

(** `l[i] = v`. *)
Definition py_set {A} (l : list A) (i : Z) (v : A) : res (list A) :=
  match py_index (length l) i with
  | None => Raise EIndexError
  | Some k => Ok (list_set l k v)
  end.

(** Slice bound: negative bounds count from the end, then clamp. *)
Definition py_bound (len : nat) (i : Z) : nat :=
  if (0 <=? i)%Z then Nat.min (Z.to_nat i) len
  else Z.to_nat (Z.of_nat len + i).

(** `l[i:j]`. *)
Definition py_slice {A} (l : list A) (i j : Z) : list A :=
  let a := py_bound (length l) i in
  let b := py_bound (length l) j in
  firstn (b - a) (skipn a l).

(** `l[i:]`. *)
Definition py_from {A} (l : list A) (i : Z) : list A :=
  skipn (py_bound (length l) i) l.

(** `l[:j]`. *)
Definition py_to {A} (l : list A) (j : Z) : list A :=
  firstn (py_bound (length l) j) l.

(** `l.remove(x)` where equality is decided by [eqb]; [None] = ValueError. *)
Fixpoint remove1 {A} (eqb : A -> bool) (l : list A) : option (list A) :=
  match l with
  | [] => None
  | x :: r => if eqb x then Some r
              else match remove1 eqb r with Some r' => Some (x :: r') | None => None end
  end.

(** `x in l` with equality decided by [eqb]. *)
Definition mem {A} (eqb : A -> bool) (l : list A) : bool := existsb eqb l.

(** `list(set(l))`: the distinct elements of [l].  Python does not specify the
    order of a set; here it is the order of the last occurrences.  Uses of this
    function in the model are insensitive to the order (shown in proofs). *)
Definition distinct {A} (dec : forall x y : A, {x = y} + {x <> y}) (l : list A) : list A :=
  nodup dec l.

(** `l.index(x)`: [None] = ValueError. *)
Fixpoint index_of {A} (eqb : A -> bool) (l : list A) : option nat :=
  match l with
  | [] => None
  | x :: r => if eqb x then Some 0
              else match index_of eqb r with Some k => Some (S k) | None => None end
  end.

(* ------------------------------------------------------------------ *)
(** * Strings: a string is a list of 8-bit characters (simplification: code
      points above 255 do not occur). *)

Definition str := list ascii.

(** String literal. *)
Definition lit (s : string) : str := list_ascii_of_string s.
Arguments lit s%string_scope.

Definition str_dec : forall x y : str, {x = y} + {x <> y} := list_eq_dec ascii_dec.

(** `a == b` on strings. *)
Definition str_eqb (a b : str) : bool := if str_dec a b then true else false.

Definition chr (n : nat) : ascii := ascii_of_nat n.
Definition nl : ascii := chr 10.
Definition cr : ascii := chr 13.
Definition sp : ascii := chr 32.
Definition dquote : ascii := chr 34.
Definition comma : ascii := chr 44.
Definition eqsign : ascii := chr 61.
Definition hash : ascii := chr 35.

(** `c.isspace()` for characters below 256. *)
Definition is_space (c : ascii) : bool :=
  let n := nat_of_ascii c in
  ((9 <=? n) && (n <=? 13) || (28 <=? n) && (n <=? 32) || (n =? 133) || (n =? 160))%nat.

(** ASCII digit; these are the only characters below 256 matched by `\d`. *)
Definition is_digit (c : ascii) : bool :=
  let n := nat_of_ascii c in ((48 <=? n) && (n <=? 57))%nat.

Definition digit_val (c : ascii) : Z := Z.of_nat (nat_of_ascii c) - 48.

Definition digit_chr (d : N) : ascii := ascii_of_N (48 + d).

(** [p] is a prefix of [s]. *)
Fixpoint prefixb (p s : str) : bool :=
  match p, s with
  | [], _ => true
  | _ :: _, [] => false
  | a :: p', b :: s' => Ascii.eqb a b && prefixb p' s'
  end.

(** `sub in s`. *)
Fixpoint contains (sub s : str) : bool :=
  prefixb sub s || match s with [] => false | _ :: r => contains sub r end.

(** `s.split(c)` for a one-character separator; never empty. *)
Fixpoint split_on (c : ascii) (s : str) : list str :=
  match s with
  | [] => [[]]
  | x :: r =>
      if Ascii.eqb x c then [] :: split_on c r
      else match split_on c r with
           | [] => [[x]]
           | w :: ws => (x :: w) :: ws
           end
  end.

(** `s.split()`: maximal runs of non-blank characters. *)
Fixpoint split_ws_aux (cur : str) (s : str) : list str :=
  match s with
  | [] => match cur with [] => [] | _ => [rev cur] end
  | x :: r =>
      if is_space x
      then match cur with [] => split_ws_aux [] r | _ => rev cur :: split_ws_aux [] r end
      else split_ws_aux (x :: cur) r
  end.
Definition split_ws (s : str) : list str := split_ws_aux [] s.

(** `s.replace(c, '')` for a single character [c]. *)
Definition remove_char (c : ascii) (s : str) : str :=
  filter (fun x => negb (Ascii.eqb x c)) s.

(** `sep.join(l)`. *)
Fixpoint join (sep : str) (l : list str) : str :=
  match l with
  | [] => []
  | [x] => x
  | x :: r => x ++ sep ++ join sep r
  end.

(** `s.strip()`. *)
Fixpoint lstrip (s : str) : str :=
  match s with
  | [] => []
  | x :: r => if is_space x then lstrip r else s
  end.
Definition strip (s : str) : str := rev (lstrip (rev (lstrip s))).

(* ------------------------------------------------------------------ *)
(** * Integers as text *)

(** Decimal digits of [n]; [fuel] bounds the number of digits. *)
Fixpoint digits (fuel : nat) (n : N) : str :=
  match fuel with
  | O => []
  | S k => if (n <? 10)%N then [digit_chr n]
           else digits k (n / 10)%N ++ [digit_chr (n mod 10)]
  end.

(** `str(n)` for a non-negative integer. *)
Definition N_str (n : N) : str := digits (S (N.size_nat n)) n.

(** `str(z)`. *)
Definition Z_str (z : Z) : str :=
  match z with
  | Zneg p => "-"%char :: N_str (Npos p)
  | Z0 => N_str 0
  | Zpos p => N_str (Npos p)
  end.

(** `str(n)` for a length or index. *)
Definition nat_str (n : nat) : str := N_str (N.of_nat n).

(** `'{0:0wd}'.format(n)`: pad with zeros on the left to width [w]. *)
Definition pad0 (w : nat) (s : str) : str := repeat "0"%char (w - length s) ++ s.

(** Value of a digit string, most significant digit first. *)
Definition digits_val (s : str) : Z :=
  fold_left (fun acc c => (acc * 10 + digit_val c)%Z) s 0%Z.

(** Non-empty string of ASCII digits. *)
Definition all_digits (s : str) : bool :=
  match s with [] => false | _ => forallb is_digit s end.

(** `s.isdigit()`: among the characters below 256 Python accepts, besides the
    ASCII digits, the superscripts two, three and one (178, 179, 185), which
    `int` rejects. *)
Definition isdigit (s : str) : bool :=
  match s with
  | [] => false
  | _ => forallb (fun c => is_digit c || (let n := nat_of_ascii c in
                     (n =? 178) || (n =? 179) || (n =? 185))%nat) s
  end.

(** `int(s)`: blanks around, an optional sign, ASCII digits.  (Simplification:
    digit group underscores, as in `1_000`, raise here.) *)
Definition py_int (s : str) : res Z :=
  match strip s with
  | [] => Raise EValueError
  | c :: r =>
      if Ascii.eqb c "-"%char then
        if all_digits r then Ok (- digits_val r)%Z else Raise EValueError
      else if Ascii.eqb c "+"%char then
        if all_digits r then Ok (digits_val r) else Raise EValueError
      else if all_digits (c :: r) then Ok (digits_val (c :: r)) else Raise EValueError
  end.

(* ------------------------------------------------------------------ *)
(** * Text files *)

(** Universal newline translation done by `open(..., 'r')`: CR LF and CR
    become LF. *)
Fixpoint universal_nl (s : str) : str :=
  match s with
  | [] => []
  | c :: r =>
      if Ascii.eqb c cr then
        match r with
        | d :: r' => if Ascii.eqb d nl then nl :: universal_nl r' else nl :: universal_nl r
        | [] => [nl]
        end
      else c :: universal_nl r
  end.

(** The sequence of non-empty results of `readline()`: each line keeps its
    line feed, the last one may lack it. *)
Fixpoint lines (s : str) : list str :=
  match s with
  | [] => []
  | c :: r =>
      if Ascii.eqb c nl then [nl] :: lines r
      else match lines r with
           | [] => [[c]]
           | l :: ls => (c :: l) :: ls
           end
  end.

(** Lines of a file opened for reading in text mode. *)
Definition file_lines (s : str) : list str := lines (universal_nl s).

(** One `readline()`: at the end of file Python returns the empty string. *)
Definition readline (ls : list str) : str * list str :=
  match ls with [] => ([], []) | l :: r => (l, r) end.

(* ------------------------------------------------------------------ *)
(** * Dictionaries in insertion order *)

Definition dict (K V : Type) := list (K * V).

(** `d.get(k)`. *)
Fixpoint dget {K V} (dec : forall x y : K, {x = y} + {x <> y}) (d : dict K V) (k : K)
  : option V :=
  match d with
  | [] => None
  | (k', v) :: r => if dec k k' then Some v else dget dec r k
  end.

(** `d[k] = v`: replaces in place or appends. *)
Fixpoint dset {K V} (dec : forall x y : K, {x = y} + {x <> y}) (d : dict K V) (k : K) (v : V)
  : dict K V :=
  match d with
  | [] => [(k, v)]
  | (k', v') :: r => if dec k k' then (k', v) :: r else (k', v') :: dset dec r k v
  end.

(** `d.pop(k)`: [None] = KeyError. *)
Fixpoint dpop {K V} (dec : forall x y : K, {x = y} + {x <> y}) (d : dict K V) (k : K)
  : option (dict K V) :=
  match d with
  | [] => None
  | (k', v') :: r =>
      if dec k k' then Some r
      else match dpop dec r k with Some r' => Some ((k', v') :: r') | None => None end
  end.

(** `dict(l)` for a list of pairs (later pairs win, first position kept). *)
Definition dict_of {K V} (dec : forall x y : K, {x = y} + {x <> y}) (l : list (K * V))
  : dict K V := fold_left (fun d kv => dset dec d (fst kv) (snd kv)) l [].

(** `list(d.keys())`. *)
Definition keys {K V} (d : dict K V) : list K := map fst d.
