(** Model of the files of drops.py: reading of the air grid (read_vel_field_from_file) and
    the file of trajectories (geom/trajectory.py, drops.py:264-267).

    A file is the list of its lines (each with its line feed); a written file is the list
    of the written pieces, each of which is one line.  Numbers: [fl] is float(.), [fm] is
    str(.); both are parameters. *)

From Coq Require Import ZArith Reals Bool List String Ascii.
From Verif Require Import Py Geom Drops.
Import ListNotations.
Open Scope list_scope.

(** A row of a node of the air grid, drops.py:202-205. *)
Definition air_row (fl : str -> res R) (l : str) : res (vect * vect) :=
  let d := split_ws l in
  do s0 <- py_get d 0; do x <- fl s0;
  do s1 <- py_get d 1; do y <- fl s1;
  do s2 <- py_get d 2; do z <- fl s2;
  do s5 <- py_get d 5; do vx <- fl s5;
  do s6 <- py_get d 6; do vy <- fl s6;
  do s7 <- py_get d 7; do vz <- fl s7;
  Ok (V3 x y z, V3 vx vy vz).

(** for i in range(ns), drops.py:201-207: the samples and the lines that are left. *)
Fixpoint air_rows (fl : str -> res R) (n : nat) (ls : list str) : res (list (vect * vect) * list str) :=
  match n with
  | O => Ok ([], ls)
  | S n =>
      let (l, ls) := readline ls in
      do s <- air_row fl l;
      do r <- air_rows fl n ls;
      Ok (s :: fst r, snd r)
  end.

(** The loop of read_vel_field_from_file, drops.py:188-219; every pass reads at least one
    line, so the number of lines is enough fuel.  The message about an unexpected line is
    not modelled. *)
Fixpoint read_air (fl : str -> res R) (fuel : nat) (ls : list str) : res (list (vect * vect)) :=
  match ls with
  | [] => Ok []
  | l :: r =>
      match fuel with
      | O => Raise EOutOfFuel
      | S fuel =>
          if contains (lit "TITLE=") l then read_air fl fuel r
          else if contains (lit "VARIABLES=") l then read_air fl fuel r
          else if contains (lit "ZONE") l then
            let ss := skipn 1 (split_ws l) in
            do s0 <- py_get ss 0;
            if contains (lit "FEBRICK") s0 then
              do s5 <- py_get ss 5; do ns <- py_int s5;
              do s8 <- py_get ss 8; do es <- py_int s8;
              do x <- air_rows fl (Z.to_nat ns) r;
              do o <- read_air fl fuel (skipn (Z.to_nat es) (snd x));
              Ok (fst x ++ o)
            else
              do s4 <- py_get ss 4; do ns <- py_int s4;
              do s7 <- py_get ss 7; do es <- py_int s7;
              read_air fl fuel (skipn (Z.to_nat (ns + es)) r)
          else read_air fl fuel r
      end
  end.

(** read_vel_field_from_file, drops.py:177-226. *)
Definition read_vel_field (fl : str -> res R) (ls : list str) : res space :=
  do ds <- read_air fl (List.length ls) ls; make_space ds.

(** Trajectory.dump, trajectory.py:94-116. *)
Definition dump (fm : R -> str) (zone_name : str) (tr : list vect) : list str :=
  let pc := List.length tr in
  [lit "ZONE T=" ++ [dquote] ++ zone_name ++ [dquote; nl];
   lit "NODES=" ++ nat_str pc ++ [nl];
   lit "ELEMENTS=" ++ Z_str (Z.of_nat pc - 1) ++ [nl];
   lit "DATAPACKING=BLOCK" ++ [nl];
   lit "ZONETYPE=FETRIANGLE" ++ [nl];
   lit "VARLOCATION=([4-3]=CELLCENTERED)" ++ [nl];
   join (lit " ") (map (fun p => fm (vx p)) tr) ++ [nl];
   join (lit " ") (map (fun p => fm (vy p)) tr) ++ [nl];
   join (lit " ") (map (fun p => fm (vz p)) tr) ++ [nl]] ++
  map (fun ii => nat_str (ii + 1) ++ lit " " ++ nat_str (ii + 2) ++ lit " " ++ nat_str (ii + 2) ++ [nl]) (seq 0 (pc - 1)).

(** The file of trajectories, drops.py:264-267 and 281; [glo] is the GloId of the face at
    a place. *)
Definition trajectories_file (fm : R -> str) (glo : nat -> Z) (trs : list (nat * list vect)) : list str :=
  [lit "# Trajectories file." ++ [nl];
   lit "TITLE=" ++ [dquote] ++ lit "Trajectories" ++ [dquote; nl];
   lit "VARIABLES=" ++ join (lit ", ") (map (fun n => [dquote] ++ lit n ++ [dquote]) ["X"; "Y"; "Z"]%string) ++ [nl]] ++
  flat_map (fun t => dump fm (lit "Trajectory-" ++ Z_str (glo (fst t))) (snd t)) trs.
