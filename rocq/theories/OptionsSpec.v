(** Specification vocabulary for json options. *)

From Coq Require Import ZArith Reals Ascii String List.
From Verif Require Import Py Geom Remesh Options.
Import ListNotations.
Open Scope list_scope.

(** [j] is an object with the member [k] of value [v]. *)
Definition member {num} (j : json num) (k : string) (v : json num) : Prop :=
  exists d, j = JObj d /\ dget str_dec d (lit k) = Some v.

(** [j] is an object without member [k]. *)
Definition lacks {num} (j : json num) (k : string) : Prop :=
  exists d, j = JObj d /\ ~ In (lit k) (keys d).

(** The heated zones: heating_system.elements is a list of objects with these zones; or
    there is no heating system, or it has no elements. *)
Definition heated {num} (j : json num) (names : list str) : Prop :=
  (exists hs els, member j "heating_system" hs /\ member hs "elements" (JList els) /\
     Forall2 (fun e nm => member e "zone" (JStr nm)) els names) \/
  (lacks j "heating_system" /\ names = []) \/
  (exists hs, member j "heating_system" hs /\ lacks hs "elements" /\ names = []).

(** The strategy: the option of the command line, else the json file, else one domain. *)
Definition chosen {num} (strat : option str) (j : json num) (s : str) : Prop :=
  strat = Some s \/
  (strat = None /\ (member j "split_strategy" (JStr s) \/ (lacks j "split_strategy" /\ s = lit "n1"))).

(** The recovery factor of the json file, or 1.0. *)
Definition factor {num} (one : num) (of_int : Z -> num) (j : json num) (rf : num) : Prop :=
  member j "recovery_factor" (JFloat rf) \/ (exists z, member j "recovery_factor" (JInt z) /\ rf = of_int z) \/
  (lacks j "recovery_factor" /\ rf = one).

(** The options of the remesher, and the keys of the json file for them. *)
Definition remesh_options : list str := map lit
  ["export_stl"; "verbose"; "nsteps_min"; "nsteps_max"; "nsteps_hi_side_fact"; "nsteps_ignore_part";
   "nsmooth_steps"; "nsmooth_s"; "nsmooth_k"; "hsmooth_steps"; "hsmooth_alfa"; "hsmooth_beta"; "rest_volume_redistr";
   "nss_steps"; "nss_epsilon"; "nss_st"; "nss_fix_nodes"; "pseudo_2d_oz"]%string.

Definition json_key (a : str) : str := if str_dec a (lit "export_stl") then a else lit "remesh_" ++ a.

(** A member that is an integer, a number, or anything taken as yes or no; [dflt] if there is
    no member. *)
Definition int_option (d : dict str (json R)) (k : string) (dflt z : Z) : Prop :=
  match dget str_dec d (lit k) with
  | None => z = dflt
  | Some (JInt x) => z = x
  | Some (JBool b) => z = if b then 1%Z else 0%Z
  | Some _ => False
  end.
Definition num_option (d : dict str (json R)) (k : string) (dflt r : R) : Prop :=
  match dget str_dec d (lit k) with
  | None => r = dflt
  | Some (JInt x) => r = IZR x
  | Some (JFloat x) => r = x
  | Some (JBool b) => r = if b then 1%R else 0%R
  | Some _ => False
  end.
Definition yes_option (d : dict str (json R)) (k : string) (dflt b : bool) : Prop :=
  match dget str_dec d (lit k) with
  | None => b = dflt
  | Some (JBool x) => b = x
  | Some _ => True
  end.

(** The options of the remesher are those of the json file. *)
Definition read_fields (d : dict str (json R)) (o : options) : Prop :=
  int_option d "remesh_nsteps_min" 0 (nsteps_min o) /\ int_option d "remesh_nsteps_max" 10 (nsteps_max o) /\
  num_option d "remesh_nsteps_hi_side_fact" (1 / 10) (nsteps_hi_side_fact o) /\
  num_option d "remesh_nsteps_ignore_part" (5 / 100) (nsteps_ignore_part o) /\
  int_option d "remesh_nsmooth_steps" 0 (nsmooth_steps o) /\ num_option d "remesh_nsmooth_s" 10 (nsmooth_s o) /\
  num_option d "remesh_nsmooth_k" (15 / 100) (nsmooth_k o) /\ int_option d "remesh_hsmooth_steps" 0 (hsmooth_steps o) /\
  num_option d "remesh_hsmooth_alfa" (2 / 10) (hsmooth_alfa o) /\ num_option d "remesh_hsmooth_beta" (1 / 10) (hsmooth_beta o) /\
  yes_option d "remesh_rest_volume_redistr" true (rest_volume_redistr o) /\ int_option d "remesh_nss_steps" 0 (nss_steps o) /\
  yes_option d "remesh_pseudo_2d_oz" false (pseudo_2d_oz o).

(** The numbers of the json file are numbers. *)
Definition is_int {num} (o : option (json num)) : Prop := match o with None | Some (JInt _) | Some (JBool _) => True | _ => False end.
Definition is_num {num} (o : option (json num)) : Prop := match o with None | Some (JInt _) | Some (JFloat _) | Some (JBool _) => True | _ => False end.


Definition good_numbers (d : dict str (json R)) : Prop :=
  Forall (fun k => is_int (dget str_dec d (lit k))) ["remesh_nsteps_min"; "remesh_nsteps_max"; "remesh_nsmooth_steps"; "remesh_hsmooth_steps"; "remesh_nss_steps"]%string /\
  Forall (fun k => is_num (dget str_dec d (lit k))) ["remesh_nsteps_hi_side_fact"; "remesh_nsteps_ignore_part"; "remesh_nsmooth_s"; "remesh_nsmooth_k"; "remesh_hsmooth_alfa"; "remesh_hsmooth_beta"]%string.

