(** Vocabulary for the properties of load_faces_calc_data, merge and split.  Nothing
    here refers to the modelled functions. *)

From Coq Require Import ZArith NArith Ascii String Bool List Permutation.
From Verif Require Import Py Heap GridSpec FileSpec StoreSpec.
Import ListNotations.
Open Scope list_scope.
Open Scope nat_scope.

Section DriverSpec.
  Context {F : FloatOps}.

  (** The first line of a calc file: after the last '=', with quotes and commas
      removed, the words are the number column and the names [vars]. *)
  Definition calc_header (line : str) (vars : list str) : Prop :=
    exists s, last_part line s /\
      vars = tl (split_ws (remove_char comma (remove_char dquote s))).

  (** The line gives the values [snd r] for the face number [fst r]. *)
  Definition calc_row (line : str) (r : Z * list val) : Prop :=
    exists s0 ss, split_ws line = s0 :: ss /\ py_int s0 = Ok (fst r) /\
      Forall2 (fun s v => prs s = Some v) ss (snd r).

  (** The text of a calc file with the variables [vars] and the rows [rows]. *)
  Definition calc_file (text : str) (vars : list str) (rows : list (Z * list val)) : Prop :=
    exists line ls, take_lines 1 (file_lines text) = ([line], ls) /\
      calc_header line vars /\ Forall2 calc_row ls rows.

  (** [vs] are the values of the last row with number [i]. *)
  Definition last_row (rows : list (Z * list val)) (i : nat) (vs : list val) : Prop :=
    exists pre post, rows = pre ++ (Z.of_nat i, vs) :: post /\ ~ In (Z.of_nat i) (map fst post).

  (** The zones [zs] of a file with the data of all faces replaced: the variables are
      [vars], and [rows] has the values for the faces in the order of the file. *)
  Fixpoint with_rows (vars : list str) (rows : list (list val)) (zs : list zone_rec) : list zone_rec :=
    match zs with
    | [] => []
    | zr :: r =>
        mkZone (zr_name zr) vars (zr_pts zr) (firstn (length (zr_conn zr)) rows) (zr_conn zr)
        :: with_rows vars (skipn (length (zr_conn zr)) rows) r
    end.

  (** Number of faces in the zones [zs]. *)
  Definition faces_in (zs : list zone_rec) : nat := list_sum (map (fun zr => length (zr_conn zr)) zs).

  (** The calc files [txts] have the same header and give together, in any order, a row
      of values for every face number exactly once; [rows] lists them by number. *)
  Definition covering (zs : list zone_rec) (txts : list str) (vars : list str) (rows : list (list val)) : Prop :=
    NoDup vars /\ length rows = faces_in zs /\ (forall row, In row rows -> length row = length vars) /\
    exists tables, Forall2 (fun t tab => calc_file t vars tab) txts tables /\
      Permutation (concat tables) (combine (map Z.of_nat (seq 0 (length rows))) rows).

  (** The grid [h] has the title, zones and faces of a file with zones [zs], with the
      given data; its nodes are at the positions of the file. *)
  Definition merged_grid (title : str) (zs : list zone_rec) (vars : list str) (rows : list (list val)) (h : heap)
    : Prop :=
    g_name h = title /\ holds_zones (with_rows vars rows zs) h /\ grid_ok h /\
    forall n, In n (g_nodes h) -> In (n_p h n) (firsts (all_pts zs)).

  (** [txts] are the texts of the files [fs] in the directory [d]. *)
  Definition opened (d : list (str * str)) (fs txts : list str) : Prop :=
    Forall2 (fun fn t => dget str_dec d fn = Some t) fs txts.

  (** The title of a new grid loaded from a file. *)
  Definition titled (evs : list event) : str := match title_in evs with Some t => t | None => [] end.

  (** The name used by split. *)
  Definition recovery_factor : str := lit "RecoveryFactor".

  (** [h'] is [h] with the missing recovery factors set to [rf] and nothing else
      changed. *)
  Definition rf_completed (rf : val) (h h' : heap) : Prop :=
    h' = set_f_data h (f_data h') /\
    forall f, f_data h' f =
      match dget str_dec (f_data h f) recovery_factor with
      | None => if in_dec Nat.eq_dec f (g_faces h) then f_data h f ++ [(recovery_factor, rf)] else f_data h f
      | Some _ => f_data h f
      end.

  (** The request names a strategy letter [c] with the number [n]. *)
  Definition asks (strat : str) (c : ascii) (n : Z) : Prop :=
    exists s, strat = c :: s /\ py_int s = Ok n.
End DriverSpec.
