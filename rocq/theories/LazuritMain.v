(** Model of the program lazurit_to_crystal.py as a whole: from a directory with pairs of files of
    Lazurit to the stored grid. *)

From Coq Require Import ZArith Ascii String Bool List.
From Verif Require Import Py Heap GridModel GridIO Convert.
Import ListNotations.
Open Scope list_scope.

(** The sizes of a block, lazurit_to_crystal.py:152-155: words 1, 3 and 5 of the fourth line of the
    file of the grid.  (readline gives the empty text after the end of the file.) *)
Definition read_sizes (gtext : str) : res (Z * Z * Z) :=
  let gl := nth 3 (file_lines gtext) [] in
  let ss := split_ws gl in
  do s1 <- py_get ss 1; do zone_i <- py_int s1;
  do s3 <- py_get ss 3; do zone_j <- py_int s3;
  do s5 <- py_get ss 5; do zone_k <- py_int s5;
  Ok (zone_i, zone_j, zone_k).

(** A pair of files, lazurit_to_crystal.py:148-202; six lines of either file are left out,
    lazurit_to_crystal.py:152-162.  Simplification: a size of 0 or below raises here (in the
    program the bounds of the slices are then negative or the zone is empty). *)
Definition pair_zone (neg : str -> res str) (gtext stext : str) : res lazurit_zone :=
  do s <- read_sizes gtext;
  let '(zone_i, zone_j, zone_k) := s in
  if negb (zone_k =? 1)%Z then Raise EAssertionError
  else if (zone_i <? 1)%Z || (zone_j <? 1)%Z then Raise EException
  else lazurit_block neg (Z.to_nat zone_i) (Z.to_nat zone_j)
         (leap_lines (skipn 6 (file_lines gtext))) (leap_lines (skipn 6 (file_lines stext))).

(** The name of the zone as text: format writes None when get_block_name gives no name,
    lazurit_to_crystal.py:169. *)
Definition zone_title (gfn : str) : str :=
  match get_block_name gfn with Some s => s | None => lit "None" end.

(** The line of a link, lazurit_to_crystal.py:201-202. *)
Definition link_text (t : nat * nat * nat) : str :=
  let '(a, b, c) := t in nat_str a ++ lit " " ++ nat_str b ++ lit " " ++ nat_str c ++ [nl].

(** The lines of a zone, lazurit_to_crystal.py:169-202. *)
Definition zone_text (name : str) (z : lazurit_zone) : list str :=
  [lit "ZONE T=" ++ [dquote] ++ name ++ [dquote; nl];
   lit "NODES=" ++ nat_str (lz_nodes z) ++ [nl];
   lit "ELEMENTS=" ++ nat_str (lz_elements z) ++ [nl];
   lit "DATAPACKING=BLOCK" ++ [nl];
   lit "ZONETYPE=FETRIANGLE" ++ [nl];
   lit "VARLOCATION=([4-11]=CELLCENTERED)" ++ [nl]] ++
  map (fun ws => join (lit " ") ws ++ [nl]) (lz_coords z) ++
  map (fun ws => join (lit " ") ws ++ [nl]) (lz_data z) ++
  map link_text (lz_links z).

(** The lines before the zones, lazurit_to_crystal.py:127-129. *)
Definition lazurit_head : list str :=
  [lit "# EXPORT_MODE=CHECK_POINT" ++ [nl];
   lit "TITLE=" ++ [dquote] ++ lit "FE Surface Data ASCII" ++ [dquote; nl];
   lit "VARIABLES=" ++ join (lit ", ") (map (fun n => [dquote] ++ lit n ++ [dquote])
     ["X"; "Y"; "Z"; "T"; "Hw"; "Hi"; "HTC"; "Beta"; "TauX"; "TauY"; "TauZ"]%string) ++ [nl]].

(** open for reading, lazurit_to_crystal.py:149-150, in the directory [dir] with names and texts
    of files. *)
Definition open_text (dir : list (str * str)) (name : str) : res str :=
  match dget str_dec dir name with Some t => Ok t | None => Raise EException end.

(** The zones of all pairs, lazurit_to_crystal.py:131-206. *)
Definition pairs_text (neg : str -> res str) (dir : list (str * str)) (ps : list (str * str)) : res (list str) :=
  do ls <- rmap (fun p =>
    do gtext <- open_text dir (fst p);
    do stext <- open_text dir (snd p);
    do z <- pair_zone neg gtext stext;
    Ok (zone_text (zone_title (fst p)) z)) ps;
  Ok (List.concat ls).

Section LazuritMain.
  Context {F : FloatOps}.

  (** The whole program, lazurit_to_crystal.py:93-213: the text of the stored file.
      Simplifications: the directory exists and the written file is not in it; a text is read
      only after all names of pairs have been checked (what is raised first may differ, not
      whether something is raised); the messages are not modelled. *)
  Definition lazurit_to_crystal (neg : str -> res str) (dir : list (str * str)) : M str :=
    ps <- lift (directory_pairs (map fst dir)) ;;
    ls <- lift (pairs_text neg dir ps) ;;
    modify new_grid ;;;
    load true (List.concat (lazurit_head ++ ls)) ;;;
    h <- gets (fun h => h) ;;
    lift (store h).
End LazuritMain.
