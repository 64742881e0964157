(** Model of the options of programs: split.py 139-204 and 208-257 (json file and command line
    of split), remeshing.py 137-310 and 393-419 (json file of the remesher).

    json.load is not modelled: a json file is the value that it returns. *)

From Coq Require Import ZArith Reals Ascii String Bool List.
From Verif Require Import Py Heap GridModel Mpi GridIO Geom Remesh Driver Programs.
Import ListNotations.
Open Scope list_scope.
Open Scope nat_scope.

(** Values returned by json.load; [num] are floats. *)
Inductive json (num : Type) : Type :=
| JNull
| JBool (b : bool)
| JInt (z : Z)
| JFloat (x : num)
| JStr (s : str)
| JList (l : list (json num))
| JObj (d : dict str (json num)).
Arguments JNull {num}. Arguments JBool {num} b. Arguments JInt {num} z. Arguments JFloat {num} x.
Arguments JStr {num} s. Arguments JList {num} l. Arguments JObj {num} d.

(** `j['key']`: only an object has keys, other values raise TypeError. *)
Definition jget {num} (j : json num) (k : str) : res (json num) :=
  match j with
  | JObj d => match dget str_dec d k with Some v => Ok v | None => Raise EKeyError end
  | _ => Raise ETypeError
  end.

(** `try: return r except KeyError: return x`. *)
Definition or_key_error {A} (r : res A) (x : A) : res A :=
  match r with Raise EKeyError => Ok x | _ => r end.

(** `for e in j`: an object gives its keys, a string its letters. *)
Definition jiter {num} (j : json num) : res (list (json num)) :=
  match j with
  | JList l => Ok l
  | JObj d => Ok (map (fun kv => JStr (fst kv)) d)
  | JStr s => Ok (map (fun c => JStr [c]) s)
  | _ => Raise ETypeError
  end.

(** A json file: [None] if there is no such file. *)
Definition json_file (num : Type) := option (json num).

Section SplitOptions.
  Context {num : Type}.

  (** extract_strategy_from_json, split.py:139-156. *)
  Definition extract_strategy (f : json_file num) : res (json num) :=
    match f with
    | None => Raise EException
    | Some data => or_key_error (jget data (lit "split_strategy")) (JStr (lit "n1"))
    end.

  (** extract_fixed_zones_from_json, split.py:162-181. *)
  Definition extract_fixed_zones (f : json_file num) : res (list (json num)) :=
    match f with
    | None => Raise EException
    | Some data =>
        or_key_error (
          do hs <- jget data (lit "heating_system");
          do els <- jget hs (lit "elements");
          do l <- jiter els;
          rmap (fun e => jget e (lit "zone")) l) []
    end.

  (** extract_recovery_factor_from_json, split.py:186-204; [one] is 1.0. *)
  Definition extract_recovery_factor (one : num) (f : json_file num) : res (json num) :=
    match f with
    | None => Raise EException
    | Some data => or_key_error (jget data (lit "recovery_factor")) (JFloat one)
    end.

  (** split.py:226-248: the strategy, the fixed zones and the recovery factor; [strat] and
      [f] are the options -s and -j. *)
  Definition split_options (one : num) (strat : option str) (f : option (json_file num)) : res (json num * list (json num) * json num) :=
    do s <- match strat with
            | Some s => Ok (JStr s)
            | None => match f with Some j => extract_strategy j | None => Ok (JStr (lit "n1")) end
            end;
    do fz <- match f with Some j => extract_fixed_zones j | None => Ok [] end;
    do rf <- match f with Some j => extract_recovery_factor one j | None => Ok (JFloat one) end;
    Ok (s, fz, rf).
End SplitOptions.

Section SplitProgram.
  Context {F : FloatOps}.
  (** 1.0, and float of an int. *)
  Variables (one : val) (of_int : Z -> val).

  (** A name of a fixed zone; a value that is not a string is not the name of any zone, so
      split raises Exception at split.py:61 (here before the grid is loaded). *)
  Definition as_name (j : json val) : res str := match j with JStr s => Ok s | _ => Raise EException end.

  (** split_strategy of split.py:72-78 must be a string: `[0]`, `== 'h'` and `int` of other
      values raise, here always TypeError. *)
  Definition as_strategy (j : json val) : res str := match j with JStr s => Ok s | _ => Raise ETypeError end.

  (** The recovery factor must be a number here (Python puts any value into the data of
      faces). *)
  Definition as_number (j : json val) : res val := match j with JFloat x => Ok x | JInt z => Ok (of_int z) | _ => Raise ETypeError end.

  (** The program split, split.py:208-257. *)
  Definition split_program (grid : option str) (sf : str) (strat : option str) (f : option (json_file val)) (t : target) : M written :=
    o <- lift (split_options one strat f) ;;
    let '(s, fz, rf) := o in
    names <- lift (rmap as_name fz) ;;
    s' <- lift (as_strategy s) ;;
    rf' <- lift (as_number rf) ;;
    split grid sf s' names rf' t.
End SplitProgram.

(* ================================================================== *)
(** ** The remesher *)

(** The attributes of TongRemesher that are options: names and values. *)
Definition attrs := dict str (json R).

(** set_default_options, remeshing.py:169-190. *)
Definition default_attrs : attrs :=
  [(lit "export_stl", JBool false);
   (lit "verbose", JBool false);
   (lit "nsteps_min", JInt 0);
   (lit "nsteps_max", JInt 10);
   (lit "nsteps_hi_side_fact", JFloat (1 / 10)%R);
   (lit "nsteps_ignore_part", JFloat (5 / 100)%R);
   (lit "nsmooth_steps", JInt 0);
   (lit "nsmooth_s", JFloat 10%R);
   (lit "nsmooth_k", JFloat (15 / 100)%R);
   (lit "hsmooth_steps", JInt 0);
   (lit "hsmooth_alfa", JFloat (2 / 10)%R);
   (lit "hsmooth_beta", JFloat (1 / 10)%R);
   (lit "rest_volume_redistr", JBool true);
   (lit "nss_steps", JInt 0);
   (lit "nss_epsilon", JFloat (1 / 100)%R);
   (lit "nss_st", JFloat (2 / 10)%R);
   (lit "nss_fix_nodes", JBool true);
   (lit "pseudo_2d_oz", JBool false)].

(** `try: self.a = data[k] except KeyError: pass`. *)
Definition try_read (data : json R) (k a : string) (self : attrs) : res attrs :=
  or_key_error (do v <- jget data (lit k); Ok (dset str_dec self (lit a) v)) self.

(** `try: self.a = data[k] except: pass`, remeshing.py:307-310. *)
Definition try_read_any (data : json R) (k a : string) (self : attrs) : res attrs :=
  match jget data (lit k) with Ok v => Ok (dset str_dec self (lit a) v) | Raise _ => Ok self end.

(** try_to_read_options, remeshing.py:194-310. *)
Definition try_to_read_options (data : json R) (self : attrs) : res attrs :=
  do self <- try_read data "export_stl" "export_stl" self;
  do self <- try_read data "remesh_verbose" "verbose" self;
  do self <- try_read data "remesh_nsteps_min" "nsteps_min" self;
  do self <- try_read data "remesh_nsteps_max" "nsteps_max" self;
  do self <- try_read data "remesh_nsteps_hi_side_fact" "nsteps_hi_side_fact" self;
  do self <- try_read data "remesh_nsteps_ignore_part" "nsteps_ignore_part" self;
  do self <- try_read data "remesh_nsmooth_steps" "nsmooth_steps" self;
  do self <- try_read data "remesh_nsmooth_s" "nsmooth_s" self;
  do self <- try_read data "remesh_nsmooth_k" "nsmooth_k" self;
  do self <- try_read data "remesh_hsmooth_steps" "hsmooth_steps" self;
  do self <- try_read data "remesh_hsmooth_alfa" "hsmooth_alfa" self;
  do self <- try_read data "remesh_hsmooth_beta" "hsmooth_beta" self;
  do self <- try_read data "remesh_rest_volume_redistr" "rest_volume_redistr" self;
  do self <- try_read data "remesh_nss_steps" "nss_steps" self;
  do self <- try_read data "remesh_nss_epsilon" "nss_epsilon" self;
  do self <- try_read data "remesh_nss_st" "nss_st" self;
  do self <- try_read data "remesh_nss_fix_nodes" "nss_fix_nodes" self;
  try_read_any data "remesh_pseudo_2d_oz" "pseudo_2d_oz" self.

(** TongRemesher.__init__, remeshing.py:137-165: [f] is the json file, if given. *)
Definition init_remesher (f : option (json R)) (verbose : bool) : res attrs :=
  do self <- match f with Some data => try_to_read_options data default_attrs | None => Ok default_attrs end;
  Ok (if verbose then dset str_dec self (lit "verbose") (JBool true) else self).

(** bool(j). *)
Definition jtrue (j : json R) : bool :=
  match j with
  | JNull => false
  | JBool b => b
  | JInt z => negb (z =? 0)%Z
  | JFloat x => negb (Reqb x 0)
  | JStr s => match s with [] => false | _ => true end
  | JList l => match l with [] => false | _ => true end
  | JObj d => match d with [] => false | _ => true end
  end.

(** A number in calculations: bool is a number too. *)
Definition jnum (j : json R) : option R :=
  match j with JInt z => Some (IZR z) | JFloat x => Some x | JBool b => Some (if b then 1 else 0)%R | _ => None end.

(** A number of steps (range needs an integer). *)
Definition jint (j : json R) : option Z :=
  match j with JInt z => Some z | JBool b => Some (if b then 1 else 0)%Z | _ => None end.

(** The attributes as the options of the modelled remesher; [None] if a number is of
    another type (then Python raises at its first use, if it is used). *)
Definition options_of (self : attrs) : option options :=
  let at_ k := dget str_dec self (lit k) in
  let num k := match at_ k with Some j => jnum j | None => None end in
  let int k := match at_ k with Some j => jint j | None => None end in
  let yes k := match at_ k with Some j => jtrue j | None => false end in
  match int "nsteps_min"%string, int "nsteps_max"%string, num "nsteps_hi_side_fact"%string, num "nsteps_ignore_part"%string,
        int "nsmooth_steps"%string, num "nsmooth_s"%string, num "nsmooth_k"%string,
        int "hsmooth_steps"%string, num "hsmooth_alfa"%string, num "hsmooth_beta"%string, int "nss_steps"%string with
  | Some a, Some b, Some c, Some d, Some e, Some f, Some g, Some h, Some i, Some j, Some k =>
      Some (Opt a b c d e f g h i j (yes "rest_volume_redistr"%string) k (yes "pseudo_2d_oz"%string))
  | _, _, _, _, _, _, _, _, _, _, _ => None
  end.

(** One mesh of remesh.py:77-92 with the options of the json file; a number of another type
    raises TypeError here. *)
Definition remesh_program {F : FloatOps} (real : val -> R) (near : R -> val) (f : option (json R)) (verbose : bool) (text : str) : M str :=
  self <- lift (init_remesher f verbose) ;;
  match options_of self with
  | Some o => remesh_file real near (match dget str_dec self (lit "nss_fix_nodes") with Some j => jtrue j | None => false end) o text
  | None => raise ETypeError
  end.

(** print_options, remeshing.py:393-419: the lines of the options (without the three names
    of files); [show] is str of a value. *)
Definition print_options (show : json R -> str) (self : attrs) : list str :=
  map (fun p => lit (fst p) ++ lit " = " ++ match dget str_dec self (lit (snd p)) with Some v => show v | None => [] end)
    [("    export_stl                ", "export_stl");
     ("    remesh_verbose            ", "verbose");
     ("    remesh_nsteps_min         ", "nsteps_min");
     ("    remesh_nsteps_max         ", "nsteps_max");
     ("    remesh_nsteps_hi_side_fact", "nsteps_hi_side_fact");
     ("    remesh_nsteps_ignore_part ", "nsteps_ignore_part");
     ("    remesh_nsmooth_steps      ", "nsmooth_steps");
     ("    remesh_nsmooth_s          ", "nsmooth_s");
     ("    remesh_nsmooth_k          ", "nsmooth_k");
     ("    remesh_hsmooth_steps      ", "hsmooth_steps");
     ("    remesh_hsmooth_alfa       ", "hsmooth_alfa");
     ("    remesh_hsmooth_beta       ", "hsmooth_beta");
     ("    remesh_rest_volume_redistr", "rest_volume_redistr");
     ("    remesh_nss_steps          ", "nss_steps");
     ("    remesh_nss_epsilon        ", "nss_epsilon");
     ("    remesh_nss_st             ", "nss_st");
     ("    remesh_nss_fix_nodes      ", "nss_fix_nodes");
     ("    remesh_pseudo_2d_oz       ", "pseudo_2d_oz")]%string.
