(** Specification vocabulary for the converters of ANSYS files. *)

From Coq Require Import ZArith Reals List Ascii String Sorted.
From Verif Require Import Py Geom Convert ConvertSpec Ansys.
From Coq Require Import Permutation.
Import ListNotations.
Open Scope list_scope.

(** ** Texts *)

(** The text [sub] occurs in [s]. *)
Definition occurs (sub s : str) : Prop := exists a b, s = a ++ sub ++ b.

Definition quoted (s : str) : str := [dquote] ++ s ++ [dquote].

(** A line of a zone names it: T="name". *)
Definition names_zone (h name : str) : Prop :=
  exists a b, h = a ++ lit "T=" ++ quoted name ++ b /\
    ~ occurs (lit "T=") a /\ ~ occurs (lit "T=") name /\ ~ In dquote name /\ ~ occurs (lit "T=" ++ [dquote]) b.

(** A line of a zone declares its numbers of nodes and elements: N=n, E=e; what is
    between the numbers has no digits, and a key N= is there once before the second of them. *)
Definition declares (h : str) (n e : nat) : Prop :=
  exists a b c, h = a ++ lit "N=" ++ nat_str n ++ b ++ nat_str e ++ c /\
    ~ occurs (lit "N=") a /\ ~ occurs (lit "N=") b /\
    b <> [] /\ Forall (fun x => is_digit x = false) b /\
    match c with [] => True | x :: _ => is_digit x = false end.

(** ** Files *)

(** A zone of a file: its name, the line that declares it, the rows of nodes and of elements. *)
Record block : Type := Block { b_name : str; b_head : str; b_nodes : list str; b_elems : list str }.
(** A line before zones (title or variables) or a zone. *)
Inductive piece : Type := Head (l : str) | Data (b : block).

(** A line with data. *)
Definition plain (l : str) : Prop := ~ occurs (lit "TITLE") l /\ ~ occurs (lit "VARIABLES") l /\ ~ occurs (lit "ZONE") l.
Definition head_title (l : str) : Prop := occurs (lit "TITLE") l.
Definition good_head (l : str) : Prop := occurs (lit "TITLE") l \/ occurs (lit "VARIABLES") l.
Definition good_block (b : block) : Prop :=
  occurs (lit "ZONE") (b_head b) /\ ~ occurs (lit "TITLE") (b_head b) /\ ~ occurs (lit "VARIABLES") (b_head b) /\
  names_zone (b_head b) (b_name b) /\ declares (b_head b) (List.length (b_nodes b)) (List.length (b_elems b)) /\
  Forall plain (b_nodes b) /\ Forall plain (b_elems b).
Definition good_piece (p : piece) : Prop := match p with Head l => good_head l | Data b => good_block b end.

Definition block_lines (b : block) : list str := b_head b :: b_nodes b ++ b_elems b.
Definition piece_lines (p : piece) : list str := match p with Head l => [l] | Data b => block_lines b end.
Definition file_of (ps : list piece) : list str := flat_map piece_lines ps.

(** The lines before zones and the zones with names from [zs], in order. *)
Inductive selected (zs : list str) : list piece -> list piece -> Prop :=
  | sel_nil : selected zs [] []
  | sel_head : forall l ps qs, selected zs ps qs -> selected zs (Head l :: ps) (Head l :: qs)
  | sel_keep : forall b ps qs, In (b_name b) zs -> selected zs ps qs -> selected zs (Data b :: ps) (Data b :: qs)
  | sel_drop : forall b ps qs, ~ In (b_name b) zs -> selected zs ps qs -> selected zs (Data b :: ps) qs.

(** ** Columns *)

(** The items of [l] in places [cols]. *)
Definition pick {A} (cols : list nat) (l : list A) : list A :=
  flat_map (fun i => match nth_error l i with Some x => [x] | None => [] end) cols.

(** The line of variables [l] has the texts [raws] between commas, after the first =
    and before the second = or the end. *)
Definition variables_line (l : str) (raws : list str) : Prop :=
  occurs (lit "VARIABLES") l /\ ~ occurs (lit "TITLE") l /\
  exists a c, l = a ++ [eqsign] ++ join [comma] raws ++ c /\ raws <> [] /\ ~ In eqsign a /\
    Forall (fun r => ~ In comma r /\ ~ In eqsign r) raws /\ match c with [] => True | x :: _ => x = eqsign end.

(** The requested name [sn] answers to the name [fn] of the file: a name of one character
    must be the same, a longer name must be a part. *)
Definition answers (sn fn : str) : Prop :=
  (List.length sn = 1%nat /\ sn = fn) \/ (List.length sn <> 1%nat /\ occurs sn fn).

(** The last name of [snames] that answers to [fn]. *)
Definition last_answer (snames : list str) (fn sn : str) : Prop :=
  exists a b, snames = a ++ sn :: b /\ answers sn fn /\ forall x, In x b -> ~ answers x fn.

(** The places of the names of the file to which requested names answer. *)
Definition columns (snames fnames : list str) (cols : list nat) : Prop :=
  StronglySorted lt cols /\
  forall i, In i cols <-> exists fn, nth_error fnames i = Some fn /\ exists sn, In sn snames /\ answers sn fn.

(** A written line of variables and a written row. *)
Definition written_variables (names : list str) : str := lit "VARIABLES=" ++ join (lit ", ") (map quoted names) ++ [nl].
Definition written_row (words : list str) : str := join (lit " ") words ++ [nl].

(** The same zone with other rows of nodes. *)
Definition with_rows (f : str -> str) (b : block) : block := Block (b_name b) (b_head b) (map f (b_nodes b)) (b_elems b).

(** ** Rows *)

(** The merged row [m] of the rows [f], [d], [a] of one node. *)
Definition merged_row (f d a m : str) : Prop :=
  exists f0 f1 f2 f3 f4 f5 f6 f7 fr d0 d1 d2 d3 dr a0 a1 a2 a3 ar,
    split_ws f = f0 :: f1 :: f2 :: f3 :: f4 :: f5 :: f6 :: f7 :: fr /\
    split_ws d = d0 :: d1 :: d2 :: d3 :: dr /\ split_ws a = a0 :: a1 :: a2 :: a3 :: ar /\
    m = written_row [f0; f1; f2; f7; d3; f4; f5; f6; f3; a3].

(** Four lists item by item. *)
Inductive zip4 {A B C D} (P : A -> B -> C -> D -> Prop) : list A -> list B -> list C -> list D -> Prop :=
  | zip4_nil : zip4 P [] [] [] []
  | zip4_cons : forall a b c d la lb lc ld, P a b c d -> zip4 P la lb lc ld -> zip4 P (a :: la) (b :: lb) (c :: lc) (d :: ld).

(** The merged zone. *)
Definition merged_block (f d a m : block) : Prop :=
  b_name m = b_name f /\ b_head m = b_head f /\ b_elems m = b_elems f /\
  zip4 merged_row (b_nodes f) (b_nodes d) (b_nodes a) (b_nodes m).

(** A row has at least [k] words. *)
Definition words (k : nat) (l : str) : Prop := (k <= List.length (split_ws l))%nat.

(** Three zones with as many rows each. *)
Definition same_size (b c : block) : Prop :=
  List.length (b_nodes b) = List.length (b_nodes c) /\ List.length (b_elems b) = List.length (b_elems c).

(** The row [m] with the coefficient of heat transfer and the recovery factor in place of
    the flux and the temperatures; [fl] reads and [fmt] writes numbers. *)
Definition htc_written (fl : str -> res R) (fmt : R -> str) (t v cp : R) (l m : str) : Prop :=
  exists x y z w3 beta tx ty tz w8 w9 flux ts stat htc rf,
    split_ws l = [x; y; z; w3; beta; tx; ty; tz; w8; w9] /\
    fl w3 = Ok flux /\ fl w8 = Ok ts /\ fl w9 = Ok stat /\
    (stat = t + rf * (v * v) / (2 * cp))%R /\ (htc * (ts - stat) = - flux)%R /\
    m = written_row [x; y; z; fmt htc; beta; tx; ty; tz; fmt rf].

(** A row of ten words in which the flux and different temperatures can be read. *)
Definition htc_readable (fl : str -> res R) (l : str) : Prop :=
  exists x y z w3 beta tx ty tz w8 w9 flux ts stat,
    split_ws l = [x; y; z; w3; beta; tx; ty; tz; w8; w9] /\
    fl w3 = Ok flux /\ fl w8 = Ok ts /\ fl w9 = Ok stat /\ ts <> stat.

(** The same zone with rows related by [P]. *)
Definition rows_related (P : str -> str -> Prop) (b c : block) : Prop :=
  b_name c = b_name b /\ b_head c = b_head b /\ b_elems c = b_elems b /\ Forall2 P (b_nodes b) (b_nodes c).

(** Lines of variables of the merged file and of the file with coefficients. *)
Definition header_of (names : list string) : str := lit "VARIABLES = " ++ join (lit ", ") (map (fun s => quoted (lit s)) names) ++ [nl].
Definition merged_names : list string := ["X"; "Y"; "Z"; "Flux"; "Beta"; "TauX"; "TauY"; "TauZ"; "Ts"; "StatT"]%string.
Definition htc_names : list string := ["X"; "Y"; "Z"; "HTC"; "Beta"; "TauX"; "TauY"; "TauZ"; "RecoveryFactor"]%string.

(** ** Zones in memory *)

(** A coordinate that cannot be read is 0. *)
Definition coordinate (fl : str -> res R) (s : str) (v : R) : Prop := fl s = Ok v \/ (fl s = Raise EValueError /\ v = 0%R).

(** The node of a row of nine words. *)
Definition node_from (fl : str -> res R) (l : str) (n : cnode) : Prop :=
  exists x y z h b tx ty tz r, split_ws l = [x; y; z; h; b; tx; ty; tz; r] /\
    coordinate fl x (vx (cn_point n)) /\ coordinate fl y (vy (cn_point n)) /\ coordinate fl z (vz (cn_point n)) /\
    fl h = Ok (c_htc (cn_data n)) /\ fl b = Ok (c_beta (cn_data n)) /\
    fl tx = Ok (c_taux (cn_data n)) /\ fl ty = Ok (c_tauy (cn_data n)) /\ fl tz = Ok (c_tauz (cn_data n)) /\
    fl r = Ok (c_rf (cn_data n)).

(** The quad (places from 0) of a row of four numbers from 1 to [n]. *)
Definition quad_from (n : nat) (l : str) (q : quad) : Prop :=
  List.length (split_ws l) = 4%nat /\
  Forall2 (fun s k => py_int s = Ok (Z.of_nat k + 1)%Z /\ (k < n)%nat) (split_ws l) (corners q).

(** The triangles of a quad: two triangles along a diagonal or one triangle, with the
    orientation of the quad (or the opposite one). *)
Definition split_quad (reversed : bool) (q : quad) (ts : list (nat * nat * nat)) : Prop :=
  (NoDup (corners q) -> exists t1 t2 x y, ts = [t1; t2] /\ proper t1 /\ proper t2 /\ diagonal q x y /\
     Permutation (edges3 t1 ++ edges3 t2) ((x, y) :: (y, x) :: oriented reversed q)) /\
  (List.length (nodup Nat.eq_dec (corners q)) = 3%nat -> exists t, ts = [t] /\ proper t /\
     (forall n, In n (corners3 t) <-> In n (corners q)) /\
     (pinched q -> Permutation (edges3 t) (real_edges (oriented reversed q)))) /\
  Forall (fun t => incl (corners3 t) (corners q)) ts.

(** The zone in memory of a zone of the file. *)
Definition loaded_zone (fl : str -> res R) (reversed : bool) (b : block) (z : fzone) : Prop :=
  fz_title z = b_name b /\ Forall2 (node_from fl) (b_nodes b) (fz_nodes z) /\
  exists quads groups, Forall2 (quad_from (List.length (b_nodes b))) (b_elems b) quads /\
    Forall2 (split_quad reversed) quads groups /\ fz_faces z = List.concat groups.

Definition blocks_of (ps : list piece) : list block := flat_map (fun p => match p with Head _ => [] | Data b => [b] end) ps.

(** A zone whose rows can be read. *)
Definition readable (fl : str -> res R) (b : block) : Prop :=
  Forall (fun l => exists n, node_from fl l n) (b_nodes b) /\
  Forall (fun l => exists q, quad_from (List.length (b_nodes b)) l q) (b_elems b).
