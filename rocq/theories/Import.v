(** Model of Grid.Import of convert/gsu_converter.py (312-395) and of the calc data file of
    gsu/grid.py (1126-1137).  A file is its text. *)

From Coq Require Import ZArith NArith Ascii String Bool List.
From Verif Require Import Py Heap GridModel Mpi GridIO.
Import ListNotations.
Open Scope list_scope.
Open Scope nat_scope.

Section Import.
  Context {F : FloatOps}.

  (** Face, gsu_converter.py:86-110: the places of its nodes in the zone, HTC, Beta and Tau
      (Import leaves RecoveryFactor zero). *)
  Record iface := mkIFace { if_nodes : nat * nat * nat; if_htc : val; if_beta : val; if_taux : val; if_tauy : val; if_tauz : val }.
  (** Zone, gsu_converter.py:114-128: the title, the points of the nodes (Import leaves the data
      of nodes zero; Id is the place) and the faces. *)
  Record izone := mkIZone { iz_title : str; iz_pts : list pt; iz_faces : list iface }.

  (** `assert b`. *)
  Definition check (b : bool) : res unit := if b then Ok tt else Raise EAssertionError.

  (** `int(l.split('=')[1])`, gsu_converter.py:336 and 338. *)
  Definition import_count (l : str) : res Z := do s <- py_get (split_on eqsign l) 1; py_int s.

  (** `float(xs[i])`. *)
  Definition float_at (ws : list str) (i : nat) : res val :=
    do s <- py_get ws (Z.of_nat i); match prs s with Some v => Ok v | None => Raise EValueError end.

  (** `len(xs) == n`. *)
  Definition len_is (ws : list str) (n : Z) : bool := Z.eqb (Z.of_nat (length ws)) n.

  (** The nodes, gsu_converter.py:352-356. *)
  Definition import_nodes (xs ys zs : list str) (n : Z) : res (list pt) :=
    rmap (fun i => do x <- float_at xs i; do y <- float_at ys i; do z <- float_at zs i; Ok (x, y, z)) (seq 0 (Z.to_nat n)).

  (** `z.Nodes[int(ns[k]) - 1]`, gsu_converter.py:379-381: the place of the node. *)
  Definition import_corner (n : nat) (ns : list str) (k : Z) : res nat :=
    do s <- py_get ns k; do i <- py_int s;
    match py_index n (i - 1) with Some a => Ok a | None => Raise EIndexError end.

  (** The faces, gsu_converter.py:376-386; returns the lines left. *)
  Fixpoint import_faces (n : nat) (htcs betas tauxs tauys tauzs : list str) (is : list nat) (ls : list str) : res (list iface * list str) :=
    match is with
    | [] => Ok ([], ls)
    | i :: r =>
        let '(l, ls1) := readline ls in
        let ns := split_ws l in
        do a <- import_corner n ns 0;
        do b <- import_corner n ns 1;
        do c <- import_corner n ns 2;
        do htc <- float_at htcs i;
        do beta <- float_at betas i;
        do taux <- float_at tauxs i;
        do tauy <- float_at tauys i;
        do tauz <- float_at tauzs i;
        do fr <- import_faces n htcs betas tauxs tauys tauzs r ls1;
        Ok (mkIFace (a, b, c) htc beta taux tauy tauz :: fst fr, snd fr)
    end.

  (** A zone, gsu_converter.py:331-386: the line of the zone and the lines after it; returns
      the lines left. *)
  Definition import_zone (l : str) (ls : list str) : res (izone * list str) :=
    do title <- title_of l;
    let '(l1, ls) := readline ls in
    do nodes_count <- import_count l1;
    let '(l2, ls) := readline ls in
    do elements_count <- import_count l2;
    let ls := snd (readline (snd (readline (snd (readline ls))))) in
    let '(lx, ls) := readline ls in
    let '(ly, ls) := readline ls in
    let '(lz, ls) := readline ls in
    let xs := split_ws lx in
    let ys := split_ws ly in
    let zs := split_ws lz in
    do _ <- check (len_is xs nodes_count);
    do _ <- check (len_is ys nodes_count);
    do _ <- check (len_is zs nodes_count);
    do pts <- import_nodes xs ys zs nodes_count;
    let ls := snd (readline (snd (readline (snd (readline ls))))) in
    let '(lh, ls) := readline ls in
    let '(lb, ls) := readline ls in
    let '(l7, ls) := readline ls in
    let '(l8, ls) := readline ls in
    let '(l9, ls) := readline ls in
    do _ <- check (len_is (split_ws lb) elements_count);
    do _ <- check (len_is (split_ws lh) elements_count);
    do _ <- check (len_is (split_ws l7) elements_count);
    do _ <- check (len_is (split_ws l8) elements_count);
    do _ <- check (len_is (split_ws l9) elements_count);
    do fr <- import_faces (length pts) (split_ws lh) (split_ws lb) (split_ws l7) (split_ws l8) (split_ws l9)
               (seq 0 (Z.to_nat elements_count)) ls;
    Ok (mkIZone title pts (fst fr), snd fr).

  (** The loop of Grid.Import, gsu_converter.py:320-392.  Every pass reads at least one line,
      so the number of lines bounds the number of passes. *)
  Fixpoint import_loop (fuel : nat) (ls : list str) : res (list izone) :=
    match fuel with
    | O => Raise EOutOfFuel
    | S k =>
        match ls with
        | [] => Ok []
        | l :: ls1 =>
            if contains (lit "EXPORT_MODE") l then import_loop k ls1
            else if contains (lit "TITLE") l then import_loop k ls1
            else if contains (lit "VARIABLES") l then import_loop k ls1
            else if contains (lit "ZONE T=") l then
              do zr <- import_zone l ls1;
              do zs <- import_loop k (snd zr);
              Ok (fst zr :: zs)
            else import_loop k ls1
        end
    end.

  (** Grid.Import, gsu_converter.py:312-395: the zones of the file (of a new grid; the zones
      added before an exception are not represented). *)
  Definition import_grid (text : str) : res (list izone) :=
    let ls := file_lines text in import_loop (S (length ls)) ls.

  (* ---------------------------------------------------------------- *)
  (** ** The calc data file *)

  (** `+` of floats, and the three numbers that random.random() returns when the line of a
      face is made. *)
  Variables (add : val -> val -> val) (rand : nat -> val * val * val).

  (** Face.get_glo_id_t_hw_hi_str, face.py:65-80. *)
  Definition calc_str (h : heap) (f : nat) : str :=
    let '(r1, r2, r3) := rand f in
    let a := [add (face_get h f (lit "T")) r1; add (face_get h f (lit "Hw")) r2; add (face_get h f (lit "Hi")) r3] in
    join (lit " ") (Z_str (f_glo h f) :: map fmt a).

  (** Grid.store_faces_calc_data, grid.py:1126-1137: the text of the file. *)
  Definition store_faces_calc_data (h : heap) : str :=
    lit "VARIABLES=""GloId"", ""T"", ""Hw"", ""Hi""" ++ [nl] ++ concat (map (fun f => calc_str h f ++ [nl]) (g_faces h)).
End Import.
