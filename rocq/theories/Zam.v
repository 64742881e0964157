(** Model of zones_adjacency_matrix.py. *)

From Coq Require Import ZArith NArith QArith Bool List.
From Verif Require Import Py Heap GridModel.
Import ListNotations.
Open Scope list_scope.
Open Scope nat_scope.

Section Zam.
  Context {F : FloatOps}.

  (** Attributes of ZonesAdjacencyMatrix: ZonesCount and M,
      zones_adjacency_matrix.py:37-41. *)
  Record zam := mkZam { zc : nat; zm : list (list nat) }.

  (** `zs.index(f.Zone)`, zones_adjacency_matrix.py:48, 52. *)
  Definition zone_index (h : heap) (zs : list nat) (f : nat) : res nat :=
    match index_of (fun z => ozone_eqb (f_zone h f) (Some z)) zs with
    | Some i => Ok i
    | None => Raise EValueError
    end.

  (** `self.M[i][j] += 1`, zones_adjacency_matrix.py:67, 70. *)
  Definition cell_inc (m : list (list nat)) (i j : nat) : res (list (list nat)) :=
    do row <- py_get m (Z.of_nat i);
    do x <- py_get row (Z.of_nat j);
    do row' <- py_set row (Z.of_nat j) (S x);
    py_set m (Z.of_nat i) row'.

  (** ZonesAdjacencyMatrix.inc, zones_adjacency_matrix.py:59-70. *)
  Definition inc (a : zam) (i j : nat) : res zam :=
    do m <- cell_inc (zm a) i j;
    if (i =? j) then Ok (mkZam (zc a) m)
    else do m' <- cell_inc m j i; Ok (mkZam (zc a) m').

  (** ZonesAdjacencyMatrix.inc_border, zones_adjacency_matrix.py:74-81. *)
  Definition inc_border (a : zam) (i : nat) : res zam := inc a i (zc a).

  (** Body of the loop over the edges, zones_adjacency_matrix.py:45-55. *)
  Definition zam_edge (h : heap) (zs : list nat) (a : zam) (e : nat) : res zam :=
    match e_faces h e with
    | [f0] => do z0 <- zone_index h zs f0; inc_border a z0
    | [f0; f1] => do z0 <- zone_index h zs f0; do z1 <- zone_index h zs f1; inc a z0 z1
    | _ => Raise EException
    end.

  (** Loop over the edges, zones_adjacency_matrix.py:44-55. *)
  Fixpoint zam_edges (h : heap) (zs : list nat) (a : zam) (es : list nat) : res zam :=
    match es with
    | [] => Ok a
    | e :: r => do a' <- zam_edge h zs a e; zam_edges h zs a' r
    end.

  (** ZonesAdjacencyMatrix.__init__, zones_adjacency_matrix.py:27-55. *)
  Definition zam_build (h : heap) (es zs : list nat) : res zam :=
    let n := length zs in
    zam_edges h zs (mkZam n (repeat (repeat 0 (n + 1)) (n + 1))) es.

  (** Loop of edges_statistics over the lines, zones_adjacency_matrix.py:107-114;
      returns (bec, iec, cec). *)
  Fixpoint stat_lines (a : zam) (is : list nat) (bec iec cec : nat) : res (nat * nat * nat) :=
    match is with
    | [] => Ok (bec, iec, cec)
    | i :: r =>
        do line <- py_get (zm a) (Z.of_nat i);
        do b <- py_get line (Z.of_nat (zc a));
        do d <- py_get line (Z.of_nat i);
        stat_lines a r (bec + b) (iec + d)
          (cec + list_sum (py_slice line (Z.of_nat (i + 1)) (Z.of_nat (zc a))))
    end.

  (** `100.0 * x / ec` as an exact fraction, zones_adjacency_matrix.py:118. *)
  Definition percent (x ec : nat) : Q := Qmake (100 * Z.of_nat x) (Pos.of_nat ec).

  (** ZonesAdjacencyMatrix.edges_statistics, zones_adjacency_matrix.py:85-120.  The
      percentages are exact fractions here. *)
  Definition edges_statistics (a : zam) : res ((nat * nat * nat * nat) * (Q * Q * Q)) :=
    do r <- stat_lines a (seq 0 (zc a)) 0 0 0;
    let '(bec, iec, cec) := r in
    let ec := bec + iec + cec in
    if (ec =? 0) then Raise EZeroDivisionError
    else Ok ((ec, bec, iec, cec), (percent bec ec, percent iec ec, percent cec ec)).

  (** ZonesAdjacencyMatrix.zone_cross_edges_array, zones_adjacency_matrix.py:139-152. *)
  Definition zone_cross_edges_array (a : zam) (zi : Z) : res (list nat) :=
    do line <- py_get (zm a) zi;
    do line1 <- py_set line zi 0;
    py_set line1 (Z.of_nat (zc a)) 0.

  (** `max(l)` of a list of numbers: ValueError on the empty list. *)
  Definition py_max (l : list nat) : res nat :=
    match l with [] => Raise EValueError | x :: r => Ok (fold_left Nat.max r x) end.

  (** ZonesAdjacencyMatrix.zone_max_cross_border_len, zones_adjacency_matrix.py:156-164. *)
  Definition zone_max_cross_border_len (a : zam) (zi : Z) : res nat :=
    do l <- zone_cross_edges_array a zi; py_max l.

  (** ZonesAdjacencyMatrix.max_cross_border_len, zones_adjacency_matrix.py:168-175. *)
  Definition max_cross_border_len (a : zam) : res nat :=
    do l <- rmap (fun i => zone_max_cross_border_len a (Z.of_nat i)) (seq 0 (zc a)); py_max l.

  (** ZonesAdjacencyMatrix.zone_cross_edges_count, zones_adjacency_matrix.py:179-187. *)
  Definition zone_cross_edges_count (a : zam) (zi : Z) : res nat :=
    do l <- zone_cross_edges_array a zi; Ok (list_sum l).

  (** ZonesAdjacencyMatrix.zone_cross_borders_count, zones_adjacency_matrix.py:191-199. *)
  Definition zone_cross_borders_count (a : zam) (zi : Z) : res nat :=
    do l <- zone_cross_edges_array a zi; Ok (length (filter (fun x => 0 <? x) l)).
End Zam.
