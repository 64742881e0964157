(** Model of convert/ansys_to_crystal.py and of Grid.LoadNodesData, Grid.Export of
    convert/gsu_converter.py at the level of text lines.

    A file is the list of its lines (each with its line feed); a written file is the list
    of the written pieces, each of which is one line.  Numbers: [fl] is float(.) and [fmt]
    is str(.) or '%f' % (.); both are parameters. *)

From Coq Require Import ZArith Reals Bool List String Ascii.
From Verif Require Import Py Geom Drops Convert.
Import ListNotations.
Open Scope list_scope.

(** is_str_title, ansys_to_crystal.py:52-64. *)
Definition is_str_title (s : str) : bool := contains (lit "TITLE") s.
(** is_str_variables, ansys_to_crystal.py:69-81. *)
Definition is_str_variables (s : str) : bool := contains (lit "VARIABLES") s.
(** is_str_zone, ansys_to_crystal.py:86-98. *)
Definition is_str_zone (s : str) : bool := contains (lit "ZONE") s.
(** is_str_meta, ansys_to_crystal.py:103-115. *)
Definition is_str_meta (s : str) : bool := is_str_title s || is_str_variables s || is_str_zone s.

(** The text 'T="%s"' % z, ansys_to_crystal.py:136. *)
Definition zone_mark (z : str) : str := lit "T=" ++ [dquote] ++ z ++ [dquote].

(** is_str_zone_to_extract, ansys_to_crystal.py:120-140; [zs] is the global list
    zones_to_extract. *)
Definition is_str_zone_to_extract (zs : list str) (s : str) : bool :=
  if negb (is_str_zone s) then false else existsb (fun z => contains (zone_mark z) s) zs.

(** s.split(sub)[1] for a text [sub]: what is between its first and second occurrences. *)
Fixpoint after_sub (sub s : str) : option str :=
  if prefixb sub s then Some (skipn (List.length sub) s)
  else match s with [] => None | _ :: r => after_sub sub r end.
Fixpoint before_sub (sub s : str) : str :=
  if prefixb sub s then [] else match s with [] => [] | c :: r => c :: before_sub sub r end.
Definition split_sub_1 (sub s : str) : res str :=
  match after_sub sub s with None => Raise EIndexError | Some t => Ok (before_sub sub t) end.

(** re.findall('(\d+)', s), ansys_to_crystal.py:157: maximal runs of digits (only
    ASCII digits are considered). *)
Fixpoint digit_runs_aux (cur s : str) : list str :=
  match s with
  | [] => match cur with [] => [] | _ => [rev cur] end
  | x :: r =>
      if is_digit x then digit_runs_aux (x :: cur) r
      else match cur with [] => digit_runs_aux [] r | _ => rev cur :: digit_runs_aux [] r end
  end.
Definition digit_runs (s : str) : list str := digit_runs_aux [] s.

(** get_zone_nodes_and_elements_count, ansys_to_crystal.py:145-159. *)
Definition zone_counts (s : str) : res (nat * nat) :=
  do t <- split_sub_1 (lit "N=") s;
  match digit_runs t with
  | a :: b :: _ => Ok (Z.to_nat (digits_val a), Z.to_nat (digits_val b))
  | _ => Raise EIndexError
  end.

(** is_variable_names_match, ansys_to_crystal.py:164-180. *)
Definition is_variable_names_match (fn sn : str) : bool :=
  if Nat.eqb (List.length sn) 1 then str_eqb sn fn else contains sn fn.

(** variables_names_and_mask, ansys_to_crystal.py:185-208. *)
Definition name_and_mask (snames : list str) (fn : str) : str * bool :=
  fold_left (fun acc sn => if is_variable_names_match fn sn then (sn, true) else acc) snames (fn, false).
Definition variables_names_and_mask (fnames snames : list str) : list str * list bool :=
  (map (fun fn => fst (name_and_mask snames fn)) fnames, map (fun fn => snd (name_and_mask snames fn)) fnames).

(** filter_with_mask, ansys_to_crystal.py:213-228. *)
Definition filter_with_mask {A} (a : list A) (m : list bool) : list A :=
  map fst (filter (fun x => snd x) (combine a m)).

(** filter_zones, ansys_to_crystal.py:233-275; [n] and [e] are nodes_to_read and
    elements_to_read. *)
Fixpoint filter_zones (zs : list str) (n e : nat) (ls : list str) : res (list str) :=
  match ls with
  | [] => Ok []
  | l :: r =>
      if is_str_meta l then
        if Nat.ltb 0 n || Nat.ltb 0 e then Raise EException
        else if is_str_title l then do o <- filter_zones zs n e r; Ok (l :: o)
        else if is_str_variables l then do o <- filter_zones zs n e r; Ok (l :: o)
        else
          do c <- zone_counts l;
          if is_str_zone_to_extract zs l then do o <- filter_zones zs (fst c) (snd c) r; Ok (l :: o)
          else filter_zones zs n e r
      else
        match n, e with
        | S n, _ => do o <- filter_zones zs n e r; Ok (l :: o)
        | O, S e => do o <- filter_zones zs O e r; Ok (l :: o)
        | O, O => filter_zones zs O O r
        end
  end.

(** The names of the line VARIABLES, ansys_to_crystal.py:306. *)
Definition header_names (l : str) : res (list str) :=
  do v <- py_get (split_on eqsign l) 1; Ok (split_on comma (remove_char dquote v)).

(** The new line VARIABLES, ansys_to_crystal.py:309-310. *)
Definition header_line (names : list str) : str :=
  lit "VARIABLES=" ++ join (lit ", ") (map (fun n => [dquote] ++ n ++ [dquote]) names) ++ [nl].

(** filter_variables, ansys_to_crystal.py:280-328; [mask] is None before a line VARIABLES
    has been read (the use of it is an UnboundLocalError then, a kind of NameError). *)
Fixpoint filter_variables (snames : list str) (mask : option (list bool)) (n e : nat) (ls : list str) : res (list str) :=
  match ls with
  | [] => Ok []
  | l :: r =>
      if is_str_meta l then
        if Nat.ltb 0 n || Nat.ltb 0 e then Raise EException
        else if is_str_title l then do o <- filter_variables snames mask n e r; Ok (l :: o)
        else if is_str_variables l then
          do fnames <- header_names l;
          let (fnames, mask) := variables_names_and_mask fnames snames in
          do o <- filter_variables snames (Some mask) n e r;
          Ok (header_line (filter_with_mask fnames mask) :: o)
        else
          do c <- zone_counts l;
          do o <- filter_variables snames mask (fst c) (snd c) r; Ok (l :: o)
      else
        match n, e with
        | S n, _ =>
            match mask with
            | None => Raise ENameError
            | Some m =>
                do o <- filter_variables snames mask n e r;
                Ok ((join (lit " ") (filter_with_mask (split_ws l) m) ++ [nl]) :: o)
            end
        | O, S e => do o <- filter_variables snames mask O e r; Ok (l :: o)
        | O, O => filter_variables snames mask O O r
        end
  end.

(** The fields of a merged row, ansys_to_crystal.py:369-373. *)
Definition merge_fields (ff df af : list str) : res (list str) :=
  do f0 <- py_get ff 0; do f1 <- py_get ff 1; do f2 <- py_get ff 2; do f7 <- py_get ff 7;
  do d3 <- py_get df 3;
  do f4 <- py_get ff 4; do f5 <- py_get ff 5; do f6 <- py_get ff 6; do f3 <- py_get ff 3;
  do a3 <- py_get af 3;
  Ok [f0; f1; f2; f7; d3; f4; f5; f6; f3; a3].

(** The line VARIABLES of the merged file, ansys_to_crystal.py:362-363. *)
Definition merged_header : str :=
  lit "VARIABLES = " ++ join (lit ", ") (map (fun n => [dquote] ++ lit n ++ [dquote])
    ["X"; "Y"; "Z"; "Flux"; "Beta"; "TauX"; "TauY"; "TauZ"; "Ts"; "StatT"]%string) ++ [nl].

(** merge_fensap_drop3d_adiabatic, ansys_to_crystal.py:333-385.  A file that has ended
    gives empty lines. *)
Fixpoint merge_files (n e : nat) (fs ds al : list str) : res (list str) :=
  match fs with
  | [] => Ok []
  | l :: r =>
      let (d, ds) := readline ds in
      let (a, al) := readline al in
      if is_str_meta l then
        if Nat.ltb 0 n || Nat.ltb 0 e then Raise EException
        else if is_str_title l then do o <- merge_files n e r ds al; Ok (l :: o)
        else if is_str_variables l then do o <- merge_files n e r ds al; Ok (merged_header :: o)
        else
          do c <- zone_counts l;
          do o <- merge_files (fst c) (snd c) r ds al; Ok (l :: o)
      else
        match n, e with
        | S n, _ =>
            do fields <- merge_fields (split_ws l) (split_ws d) (split_ws a);
            do o <- merge_files n e r ds al; Ok ((join (lit " ") fields ++ [nl]) :: o)
        | O, S e => do o <- merge_files O e r ds al; Ok (l :: o)
        | O, O => merge_files O O r ds al
        end
  end.

(** One row of calculate_htc_recovery_factor, ansys_to_crystal.py:426-445. *)
Definition htc_row (fl : str -> res R) (fmt : R -> str) (air_temperature air_velocity heat_capacity : R) (fields : list str)
  : res (list str) :=
  do s3 <- py_get fields 3; do flux0 <- fl s3;
  do s8 <- py_get fields 8; do t_surf <- fl s8;
  do s9 <- py_get fields 9; do static_temperature <- fl s9;
  do x <- htc_recovery_factor air_temperature air_velocity heat_capacity flux0 t_surf static_temperature;
  do fields <- py_set fields 3 (fmt (fst x));
  let fields := py_to fields (-1) in
  py_set fields (-1) (fmt (snd x)).

(** The line VARIABLES of the file with coefficients, ansys_to_crystal.py:418-419. *)
Definition htc_header : str :=
  lit "VARIABLES = " ++ join (lit ", ") (map (fun n => [dquote] ++ lit n ++ [dquote])
    ["X"; "Y"; "Z"; "HTC"; "Beta"; "TauX"; "TauY"; "TauZ"; "RecoveryFactor"]%string) ++ [nl].

(** calculate_htc_recovery_factor, ansys_to_crystal.py:390-454. *)
Fixpoint calculate_htc (fl : str -> res R) (fmt : R -> str) (t v cp : R) (n e : nat) (ls : list str) : res (list str) :=
  match ls with
  | [] => Ok []
  | l :: r =>
      if is_str_meta l then
        if Nat.ltb 0 n || Nat.ltb 0 e then Raise EException
        else if is_str_title l then do o <- calculate_htc fl fmt t v cp n e r; Ok (l :: o)
        else if is_str_variables l then do o <- calculate_htc fl fmt t v cp n e r; Ok (htc_header :: o)
        else
          do c <- zone_counts l;
          do o <- calculate_htc fl fmt t v cp (fst c) (snd c) r; Ok (l :: o)
      else
        match n, e with
        | S n, _ =>
            do fields <- htc_row fl fmt t v cp (split_ws l);
            do o <- calculate_htc fl fmt t v cp n e r; Ok ((join (lit " ") fields ++ [nl]) :: o)
        | O, S e => do o <- calculate_htc fl fmt t v cp O e r; Ok (l :: o)
        | O, O => calculate_htc fl fmt t v cp O O r
        end
  end.

(* ---------------------------------------------------------------- *)
(** ** gsu_converter.Grid *)

(** Node, gsu_converter.py:31-60 (Id is the place of the node in its zone). *)
Record cnode : Type := CNode { cn_point : vect; cn_data : cdata }.

(** Zone, gsu_converter.py:114-128, with nodes; a face is the places of its nodes. *)
Record fzone : Type := FZone { fz_title : str; fz_nodes : list cnode; fz_faces : list (nat * nat * nat) }.

(** Grid.parse_coordinate, gsu_converter.py:187-193 (the message is not modelled). *)
Definition parse_coordinate (fl : str -> res R) (s : str) : res R :=
  match fl s with Raise EValueError => Ok 0%R | x => x end.

(** The title of a zone, gsu_converter.py:220. *)
Definition zone_title (l : str) : res str :=
  do t <- split_sub_1 (lit "T=") l; py_get (split_on dquote t) 1.

(** A row of a node, gsu_converter.py:223-236: nine fields. *)
Definition node_row (fl : str -> res R) (l : str) : res cnode :=
  match split_ws l with
  | [x; y; z; htc; beta; taux; tauy; tauz; rf] =>
      do x <- parse_coordinate fl x; do y <- parse_coordinate fl y; do z <- parse_coordinate fl z;
      do htc <- fl htc; do beta <- fl beta; do taux <- fl taux; do tauy <- fl tauy; do tauz <- fl tauz; do rf <- fl rf;
      Ok (CNode (V3 x y z) (CData htc beta taux tauy tauz rf))
  | _ => Raise EValueError
  end.

(** zone.Nodes[int(s) - 1], gsu_converter.py:243-246: the place of the node. *)
Definition corner_place (len : nat) (s : str) : res nat :=
  do i <- py_int s;
  match py_index len (i - 1) with Some k => Ok k | None => Raise EIndexError end.

(** A row of an element, gsu_converter.py:239-275: four numbers. *)
Definition element_row (reversed : bool) (len : nat) (l : str) : res (list (nat * nat * nat)) :=
  match split_ws l with
  | [s1; s2; s3; s4] =>
      do n1 <- corner_place len s1; do n2 <- corner_place len s2; do n3 <- corner_place len s3; do n4 <- corner_place len s4;
      Ok (quad_faces reversed (n1, n2, n3, n4))
  | _ => Raise EValueError
  end.

(** self.Zones[-1], gsu_converter.py:231 and 240; [zs] holds the zones in reverse order. *)
Definition last_zone (zs : list fzone) : res (fzone * list fzone) :=
  match zs with [] => Raise EIndexError | z :: r => Ok (z, r) end.

(** Grid.LoadNodesData, gsu_converter.py:197-281; [zs] holds the zones in reverse order. *)
Fixpoint load_nodes_data (fl : str -> res R) (reversed : bool) (n e : nat) (zs : list fzone) (ls : list str) : res (list fzone) :=
  match ls with
  | [] => Ok (rev zs)
  | l :: r =>
      if contains (lit "TITLE") l then load_nodes_data fl reversed n e zs r
      else if contains (lit "VARIABLES") l then load_nodes_data fl reversed n e zs r
      else if contains (lit "ZONE") l then
        do c <- zone_counts l;
        do t <- zone_title l;
        load_nodes_data fl reversed (fst c) (snd c) (FZone t [] [] :: zs) r
      else
        match n, e with
        | S n, _ =>
            do node <- node_row fl l;
            do zr <- last_zone zs;
            let (z, zs) := zr in
            load_nodes_data fl reversed n e (FZone (fz_title z) (fz_nodes z ++ [node]) (fz_faces z) :: zs) r
        | O, S e =>
            do zr <- last_zone zs;
            let (z, zs) := zr in
            do fs <- element_row reversed (List.length (fz_nodes z)) l;
            load_nodes_data fl reversed O e (FZone (fz_title z) (fz_nodes z) (fz_faces z ++ fs) :: zs) r
        | O, O => load_nodes_data fl reversed O O zs r
        end
  end.

(** The data of a face after ConvertDataFromNodesToFaces, gsu_converter.py:295-308. *)
Definition face_data (z : fzone) (f : nat * nat * nat) : option cdata :=
  let '(a, b, c) := f in
  match nth_error (fz_nodes z) a, nth_error (fz_nodes z) b, nth_error (fz_nodes z) c with
  | Some x, Some y, Some w => Some (mean_data (cn_data x) (cn_data y) (cn_data w))
  | _, _, _ => None
  end.

(** The lines of values of Export, gsu_converter.py:418-444: '%f ' for every value. *)
Definition values_line (fmt : R -> str) (l : list R) : str := flat_map (fun x => fmt x ++ lit " ") l ++ [nl].

(** The values of a face written by Export; a face whose corners are missing cannot
    occur and gives no values. *)
Definition faces_values (z : fzone) (g : cdata -> R) : list R :=
  flat_map (fun f => match face_data z f with Some d => [g d] | None => [] end) (fz_faces z).

(** A zone of Grid.Export, gsu_converter.py:411-447, after ConvertDataFromNodesToFaces. *)
Definition export_zone (fmt : R -> str) (z : fzone) : list str :=
  [lit "ZONE T=" ++ [dquote] ++ fz_title z ++ [dquote; nl];
   lit "NODES=" ++ nat_str (List.length (fz_nodes z)) ++ [nl];
   lit "ELEMENTS=" ++ nat_str (List.length (fz_faces z)) ++ [nl];
   lit "DATAPACKING=BLOCK" ++ [nl];
   lit "ZONETYPE=FETRIANGLE" ++ [nl];
   lit "VARLOCATION=([4-9]=CELLCENTERED)" ++ [nl];
   values_line fmt (map (fun n => vx (cn_point n)) (fz_nodes z));
   values_line fmt (map (fun n => vy (cn_point n)) (fz_nodes z));
   values_line fmt (map (fun n => vz (cn_point n)) (fz_nodes z));
   values_line fmt (faces_values z c_htc); values_line fmt (faces_values z c_beta);
   values_line fmt (faces_values z c_taux); values_line fmt (faces_values z c_tauy); values_line fmt (faces_values z c_tauz);
   values_line fmt (faces_values z c_rf)] ++
  map (fun f => let '(a, b, c) := f in
    nat_str (a + 1) ++ lit " " ++ nat_str (b + 1) ++ lit " " ++ nat_str (c + 1) ++ [nl]) (fz_faces z).

(** Grid.Export, gsu_converter.py:399-449. *)
Definition export (fmt : R -> str) (zs : list fzone) : list str :=
  (lit "VARIABLES=" ++ join (lit ", ") (map (fun n => [dquote] ++ lit n ++ [dquote])
    ["X"; "Y"; "Z"; "HTC"; "Beta"; "TauX"; "TauY"; "TauZ"; "RecoveryFactor"]%string) ++ [nl]) ::
  flat_map (export_zone fmt) zs.
