(** Vocabulary for the properties of load and store: the form of a .dat file and its
    contents, and when two grids have the same contents.  Nothing here refers to the
    modelled functions load and store; only Python's operations on strings are used. *)

From Coq Require Import ZArith NArith Ascii String Bool List.
From Verif Require Import Py Heap GridSpec.
Import ListNotations.
Open Scope list_scope.
Open Scope nat_scope.

Section FileSpec.
  Context {F : FloatOps}.

  (** Contents of one zone of a file. *)
  Record zone_rec := mkZone {
    zr_name : str;
    zr_vars : list str;               (** names of the face variables *)
    zr_pts : list pt;                 (** the nodes *)
    zr_data : list (list val);        (** for every face the values of the variables *)
    zr_conn : list (nat * nat * nat)  (** for every face the positions of its corners in [zr_pts] *)
  }.

  (** What a file says, in the order of the file. *)
  Inductive event := ETitle (name : str) | EZone (z : zone_rec).

  (** The zones of a file. *)
  Definition zones_of (evs : list event) : list zone_rec :=
    flat_map (fun e => match e with EZone z => [z] | ETitle _ => [] end) evs.

  (** The title of a file: the last one given. *)
  Definition title_in (evs : list event) : option str :=
    fold_left (fun t e => match e with ETitle s => Some s | EZone _ => t end) evs None.

  (** The next [k] lines and the rest; past the end of the file the lines are empty. *)
  Fixpoint take_lines (k : nat) (ls : list str) : list str * list str :=
    match k with
    | O => ([], ls)
    | S k' => let (l, r) := take_lines k' (tl ls) in (hd [] ls :: l, r)
    end.

  (** Text after the last '=' of a line. *)
  Definition last_part (line s : str) : Prop := s = last (split_on eqsign line) [].

  (** The line reads [...]TITLE="name". *)
  Definition title_line (line name : str) : Prop :=
    hd_error line <> Some hash /\ contains (lit "TITLE=") line = true /\
    exists s, nth_error (split_on eqsign line) 1 = Some s /\ name = py_slice s 1 (-2).

  (** The line reads [...]VARIABLES="a", "b", .... *)
  Definition vars_line (line : str) (vars : list str) : Prop :=
    hd_error line <> Some hash /\
    contains (lit "TITLE=") line = false /\ contains (lit "VARIABLES=") line = true /\
    exists s, last_part line s /\
      vars = split_ws (remove_char comma (remove_char dquote (py_to s (-1)))).

  (** The line reads [...]ZONE T="name". *)
  Definition zone_line (line name : str) : Prop :=
    hd_error line <> Some hash /\
    contains (lit "TITLE=") line = false /\ contains (lit "VARIABLES=") line = false /\
    contains (lit "ZONE T=") line = true /\
    exists s, last_part line s /\ name = py_slice s 1 (-2).

  (** The line reads [...]KEY=n. *)
  Definition count_line (key : string) (line : str) (n : Z) : Prop :=
    contains (lit key) line = true /\
    exists s, last_part line s /\ py_int (py_to s (-1)) = Ok n.

  (** The line consists of the text [s] and one more character (the line feed, as a
      rule). *)
  Definition text_line (s line : str) : Prop := exists c, line = s ++ [c].

  (** The line is a sequence of numbers. *)
  Definition number_line (line : str) (vs : list val) : Prop :=
    Forall2 (fun s v => prs s = Some v) (split_ws line) vs.

  (** The line consists of three integers that select, counting from one, the elements
      [a], [b], [c] of a list of [n] elements (as Python does: 0 is the last element,
      -1 the one before it, and so on). *)
  Definition corner_line (n : nat) (line : str) (t : nat * nat * nat) : Prop :=
    let '(a, b, c) := t in
    exists sa sb sc ka kb kc, split_ws line = [sa; sb; sc] /\
      py_int sa = Ok ka /\ py_int sb = Ok kb /\ py_int sc = Ok kc /\
      py_index n (ka - 1) = Some a /\ py_index n (kb - 1) = Some b /\ py_index n (kc - 1) = Some c.

  (** [zone_block vars ls zr rest]: after the line with the zone name the lines [ls]
      begin with a zone block with the contents [zr], and continue with [rest]. *)
  Definition zone_block (vars : list str) (ls : list str) (zr : zone_rec) (rest : list str) : Prop :=
    exists l1 l2 l3 l4 l5 body n m lx ly lz cx cy cz body2 drows d body3 crows,
      ls = l1 :: l2 :: l3 :: l4 :: l5 :: body /\
      count_line "NODES=" l1 n /\ count_line "ELEMENTS=" l2 m /\
      text_line (lit "DATAPACKING=BLOCK") l3 /\
      text_line (lit "ZONETYPE=FETRIANGLE") l4 /\
      text_line (lit "VARLOCATION=([4-" ++ nat_str (length vars) ++ lit "]=CELLCENTERED)") l5 /\
      zr_vars zr = skipn 3 vars /\
      (* three lines of coordinates *)
      take_lines 3 body = ([lx; ly; lz], body2) /\
      number_line lx cx /\ number_line ly cy /\ number_line lz cz /\
      length (zr_pts zr) = Z.to_nat n /\
      (forall i x y z, nth_error (zr_pts zr) i = Some (x, y, z) ->
         nth_error cx i = Some x /\ nth_error cy i = Some y /\ nth_error cz i = Some z) /\
      (* a line of values for every face variable *)
      take_lines (length (zr_vars zr)) body2 = (drows, body3) /\
      Forall2 number_line drows d /\
      length (zr_data zr) = Z.to_nat m /\
      (forall i row, nth_error (zr_data zr) i = Some row ->
         Forall2 (fun l v => nth_error l i = Some v) d row) /\
      (* a line for every face *)
      take_lines (Z.to_nat m) body3 = (crows, rest) /\
      Forall2 (corner_line (length (zr_pts zr))) crows (zr_conn zr).

  (** [file_form vars ls evs]: the lines [ls] are a well-formed file with the contents
      [evs]; [vars] are the variables declared before. *)
  Inductive file_form : list str -> list str -> list event -> Prop :=
  | ff_end : forall vars, file_form vars [] []
  | ff_comment : forall vars l ls evs, hd_error l = Some hash ->
      file_form vars ls evs -> file_form vars (l :: ls) evs
  | ff_title : forall vars l ls s evs, title_line l s ->
      file_form vars ls evs -> file_form vars (l :: ls) (ETitle s :: evs)
  | ff_vars : forall vars l ls vars' evs, vars_line l vars' ->
      file_form vars' ls evs -> file_form vars (l :: ls) evs
  | ff_zone : forall vars l ls zr rest evs, zone_line l (zr_name zr) ->
      zone_block vars ls zr rest ->
      file_form vars rest evs -> file_form vars (l :: ls) (EZone zr :: evs).

  (** A zone record of a file is complete: data and corners for the same faces, one
      value for every variable, corners within the list of nodes. *)
  Definition zone_rec_ok (zr : zone_rec) : Prop :=
    length (zr_conn zr) = length (zr_data zr) /\
    (forall row, In row (zr_data zr) -> length row = length (zr_vars zr)) /\
    (forall a b c, In (a, b, c) (zr_conn zr) ->
       a < length (zr_pts zr) /\ b < length (zr_pts zr) /\ c < length (zr_pts zr)).

  (** All nodes of a file, in order. *)
  Definition all_pts (zs : list zone_rec) : list pt := flat_map zr_pts zs.

  (** [seen] positions were met before; the points of [ps] that differ, after
      rounding, from all earlier ones. *)
  Fixpoint firsts_from (seen : list rc) (ps : list pt) : list pt :=
    match ps with
    | [] => []
    | p :: r => if in_dec rc_dec (rnd p) seen then firsts_from seen r
                else p :: firsts_from (rnd p :: seen) r
    end.
  (** The points that differ, after rounding, from all earlier ones. *)
  Definition firsts (ps : list pt) : list pt := firsts_from [] ps.

  (** The positions of the three corners of a face of the file. *)
  Definition corners (zr : zone_rec) (t : nat * nat * nat) : list (option pt) :=
    let '(a, b, c) := t in
    [nth_error (zr_pts zr) a; nth_error (zr_pts zr) b; nth_error (zr_pts zr) c].

  (** The rounded corners of the faces of a file, in order. *)
  Definition file_faces (zs : list zone_rec) : list (list rc) :=
    flat_map (fun zr => map (fun t =>
      flat_map (fun o => match o with Some p => [rnd p] | None => [] end) (corners zr t)) (zr_conn zr)) zs.

  (** No face of the file has two corners that coincide after rounding. *)
  Definition no_degenerate (zs : list zone_rec) : Prop :=
    forall t, In t (file_faces zs) -> NoDup t.

  (** Some three faces of the file share two corners that differ after rounding. *)
  Definition three_share (zs : list zone_rec) : Prop :=
    exists i j k ti tj tk p q, i < j /\ j < k /\ p <> q /\
      nth_error (file_faces zs) i = Some ti /\ nth_error (file_faces zs) j = Some tj /\
      nth_error (file_faces zs) k = Some tk /\
      (In p ti /\ In q ti) /\ (In p tj /\ In q tj) /\ (In p tk /\ In q tk).

  (** The grid consists of the zones [zs], in this order: names, faces in order with
      the values of the variables and the corner positions. *)
  Definition holds_zones (zs : list zone_rec) (h : heap) : Prop :=
    length (g_zones h) = length zs /\
    g_faces h = flat_map (z_faces h) (g_zones h) /\
    forall i z zr, nth_error (g_zones h) i = Some z -> nth_error zs i = Some zr ->
      z_name h z = zr_name zr /\ length (z_faces h z) = length (zr_conn zr) /\
      forall k f, nth_error (z_faces h z) k = Some f -> f_zone h f = Some z /\
        exists row t, nth_error (zr_data zr) k = Some row /\ nth_error (zr_conn zr) k = Some t /\
          f_data h f = dict_of str_dec (combine (zr_vars zr) row) /\
          Forall2 (fun o n => exists p, o = Some p /\ n_rc h n = rnd p) (corners zr t) (f_nodes h f).

  (** The state without the name of the grid and the number of border nodes. *)
  Definition core (h : heap) : heap := set_g_nborder (set_g_name h []) 0.
End FileSpec.
