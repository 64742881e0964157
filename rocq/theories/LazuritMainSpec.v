(** Specification vocabulary for the program lazurit_to_crystal.py. *)

From Coq Require Import ZArith Ascii String List.
From Verif Require Import Py Heap FileSpec ConvertSpec.
Import ListNotations.
Open Scope list_scope.
Open Scope nat_scope.

Section LazuritMainSpec.
  Context {F : FloatOps}.

  (** A block: columns and rows of nodes, the coordinates of the nodes, and for each of the eight
      variables the values in the cells. *)
  Record wall_block : Type := WBlock {
    wb_i : nat; wb_j : nat; wb_x : list val; wb_y : list val; wb_z : list val; wb_d : list (list val) }.

  Definition wb_cells (b : wall_block) : nat := (wb_i b - 1) * (wb_j b - 1).

  (** The numbers of the block are complete. *)
  Definition whole_block (b : wall_block) : Prop :=
    1 <= wb_i b /\ 1 <= wb_j b /\
    List.length (wb_x b) = wb_i b * wb_j b /\ List.length (wb_y b) = wb_i b * wb_j b /\ List.length (wb_z b) = wb_i b * wb_j b /\
    List.length (wb_d b) = 8 /\ (forall l, In l (wb_d b) -> List.length l = wb_cells b).

  (** The words after the sixth line of a text, in order, begin with the numbers [vs]. *)
  Definition body_numbers (text : str) (vs : list val) : Prop :=
    exists ws rest, flat_map split_ws (skipn 6 (file_lines text)) = ws ++ rest /\ Forall2 (fun w v => prs w = Some v) ws vs.

  (** The fourth line has the sizes [i], [j] and 1 as its words 1, 3 and 5 (counted from 0). *)
  Definition size_line (text : str) (i j : nat) : Prop :=
    exists l s1 s3 s5, nth_error (file_lines text) 3 = Some l /\
      nth_error (split_ws l) 1 = Some s1 /\ nth_error (split_ws l) 3 = Some s3 /\ nth_error (split_ws l) 5 = Some s5 /\
      py_int s1 = Ok (Z.of_nat i) /\ py_int s3 = Ok (Z.of_nat j) /\ py_int s5 = Ok 1%Z.

  (** The two texts hold the block [b]. *)
  Definition block_files (gtext stext : str) (b : wall_block) : Prop :=
    whole_block b /\ size_line gtext (wb_i b) (wb_j b) /\
    body_numbers gtext (wb_x b ++ wb_y b ++ wb_z b) /\ body_numbers stext (List.concat (wb_d b)).

  (** The name of the zone: the name of the file from its last letter B on, without the last four
      characters. *)
  Definition names_zone (file name : str) : Prop :=
    exists p q ext, file = p ++ "B"%char :: q ++ ext /\ List.length ext = 4 /\ ~ In "B"%char (q ++ ext) /\ name = "B"%char :: q.

  (** The variables of the faces. *)
  Definition wall_names : list str := map lit ["T"; "Hw"; "Hi"; "HTC"; "Beta"; "TauX"; "TauY"; "TauZ"]%string.

  (** The node in column [a] and row [c] of a block with [zi] columns, counted from 0. *)
  Definition node_at (zi a c : nat) : nat := a + c * zi.

  (** The zone of the block [b] with the given name: the nodes in the order of the file; cells are
      taken column by column, each gives two triangles with the diagonal from (i, j) to (i+1, j+1);
      triangles 2c and 2c+1 carry the values number [c] of the file, those of the last three
      variables with the opposite sign ([opp]). *)
  Definition zone_of_block (opp : val -> val) (name : str) (b : wall_block) (zr : zone_rec) : Prop :=
    zr_name zr = name /\ zr_vars zr = wall_names /\
    zr_pts zr = combine (combine (wb_x b) (wb_y b)) (wb_z b) /\
    List.length (zr_conn zr) = 2 * wb_cells b /\ List.length (zr_data zr) = 2 * wb_cells b /\
    (forall i j, i < wb_i b - 1 -> j < wb_j b - 1 ->
       let n := node_at (wb_i b) in let c := i * (wb_j b - 1) + j in
       nth_error (zr_conn zr) (2 * c) = Some (n i j, n i (j + 1), n (i + 1) (j + 1)) /\
       nth_error (zr_conn zr) (2 * c + 1) = Some (n i j, n (i + 1) (j + 1), n (i + 1) j)) /\
    (forall c e row, c < wb_cells b -> e < 2 -> nth_error (zr_data zr) (2 * c + e) = Some row ->
       Forall2 (fun l v => nth_error l c = Some v) (firstn 5 (wb_d b) ++ map (map opp) (skipn 5 (wb_d b))) row).

  (** The order of texts: character by character, a beginning before the whole. *)
  Definition text_le (a b : str) : Prop :=
    (exists r, b = a ++ r) \/
    exists p x y r s, a = p ++ x :: r /\ b = p ++ y :: s /\ nat_of_ascii x < nat_of_ascii y.

  (** str(-float(.)): the text of the opposite number. *)
  Definition negates (opp : val -> val) (neg : str -> res str) : Prop :=
    forall e v, prs e = Some v -> exists e', neg e = Ok e' /\ (e' <> [] /\ forall c, In c e' -> is_space c = false) /\ prs e' = Some (opp v).

  (** The directory [dir] (names and texts of files) has both files of the block with the ending
      [s] in the names; they hold the block [b], and its zone is called [name]. *)
  Definition block_of (dir : list (str * str)) (s name : str) (b : wall_block) : Prop :=
    exists gt st, In (grid_name s, gt) dir /\ In (solution_name s, st) dir /\ block_files gt st b /\
      names_zone (grid_name s) name /\ (forall x, In x name -> x <> eqsign /\ x <> nl /\ x <> cr).

  (** The two files of a block, of which nothing is known but the sizes in the first one. *)
  Definition sized_pair (dir : list (str * str)) (s gt st : str) (i j : nat) : Prop :=
    In (grid_name s, gt) dir /\ In (solution_name s, st) dir /\ size_line gt i j /\ 1 <= i /\ 1 <= j /\
    exists name, names_zone (grid_name s) name /\ (forall x, In x name -> x <> eqsign /\ x <> nl /\ x <> cr).

  (** str(-float(.)) refuses texts that are not numbers and gives words. *)
  Definition only_numbers (neg : str -> res str) : Prop :=
    forall e e', neg e = Ok e' -> (e' <> [] /\ forall c, In c e' -> is_space c = false) /\ exists v, prs e = Some v.

  (** The third size in the fourth line. *)
  Definition third_size (text : str) (k : Z) : Prop :=
    exists l s5, nth_error (file_lines text) 3 = Some l /\ nth_error (split_ws l) 5 = Some s5 /\ py_int s5 = Ok k.
End LazuritMainSpec.
