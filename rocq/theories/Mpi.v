(** Model of the files written for the MPI program: Grid.store_mpi, grid.py:663-740,
    and of get_mpi_borders, crys.py:31-67. *)

From Coq Require Import ZArith NArith Ascii String Bool List.
From Verif Require Import Py Heap GridModel Zam.
Import ListNotations.
Open Scope list_scope.
Open Scope nat_scope.

Section Mpi.
  Context {F : FloatOps}.

  (** The values in Zone.get_nodes_coord_slice_str, zone.py:92-103. *)
  Definition nodes_coord_slice (h : heap) (z i : nat) : list val :=
    map (fun n => coord i (n_p h n)) (z_nodes h z).

  (** Face.__getitem__, face.py:41-49. *)
  Definition face_get (h : heap) (f : nat) (e : str) : val :=
    match dget str_dec (f_data h f) e with Some v => v | None => val0 end.

  (** The values in Zone.get_faces_data_slice_str, zone.py:107-118. *)
  Definition faces_data_slice (h : heap) (z : nat) (e : str) : list val :=
    map (fun f => face_get h f e) (z_faces h z).

  (** Zone.get_faces_global_ids_slice_str, zone.py:122-132, as numbers. *)
  Definition faces_global_ids_slice (h : heap) (z : nat) : list Z :=
    map (f_glo h) (z_faces h z).

  (** `' '.join([...])` of formatted numbers, zone.py:100-101, 115-116. *)
  Definition vals_str (l : list val) : str := join [sp] (map fmt l).

  (** `for i, x in enumerate(l): tbl[x.GloId] = i`, grid.py:712-715. *)
  Fixpoint locate (glo : nat -> Z) (tbl : list Z) (i : nat) (l : list nat) : res (list Z) :=
    match l with
    | [] => Ok tbl
    | x :: r => do t <- py_set tbl (glo x) (Z.of_nat i); locate glo t (S i) r
    end.

  (** `[tbl[x.GloId] for x in l]`, grid.py:718, 721, 724. *)
  Definition local_ids (glo : nat -> Z) (tbl : list Z) (l : list nat) : res (list Z) :=
    rmap (fun x => py_get tbl (glo x)) l.

  (** Variables of the files, grid.py:674-676, without X, Y, Z, GloId. *)
  Definition mpi_vars : list str :=
    map lit ["T"; "Hw"; "Hi"; "HTC"; "Beta"; "MImp2"; "Vd2"; "TauX"; "TauY"; "TauZ";
             "RecoveryFactor"]%string.

  (** Contents of one file, grid.py:692-738 (before conversion to text). *)
  Record mpi_file := mkMpi {
    mf_title : str; mf_mpi : nat; mf_nodes : nat; mf_edges : nat; mf_cross : nat; mf_faces : nat;
    mf_coords : list (list val);      (** NODES COORDINATES *)
    mf_gloids : list Z;               (** FACES DATA, first line *)
    mf_data : list (list val);        (** FACES DATA, other lines *)
    mf_fn : list (list Z);            (** FACE-NODE CONNECTIVITY LIST *)
    mf_fe : list (list Z);            (** FACE-EDGE CONNECTIVITY LIST *)
    mf_en : list (list Z);            (** EDGE-NODE CONNECTIVITY LIST *)
    mf_nborders : nat;                (** MPI-BORDERS *)
    mf_borders : list (nat * list Z)  (** `[li] e e e ...` *)
  }.

  (** Loop over the line of the adjacency matrix, grid.py:729-738 and crys.py:60-66. *)
  Fixpoint border_lists (h : heap) (tbl : list Z) (z li : nat) (line : list nat)
    : res (list (nat * list Z)) :=
    match line with
    | [] => Ok []
    | le :: r =>
        if 0 <? le then
          do lz <- py_get (g_zones h) (Z.of_nat li);
          do ids <- local_ids (e_glo h) tbl (filter (fun e => is_connect_zones h e z lz) (z_edges h z));
          do bs <- border_lists h tbl z (S li) r;
          Ok ((li, ids) :: bs)
        else border_lists h tbl z (S li) r
    end.

  (** Body of the loop over zones, grid.py:684-740; the tables of local identifiers
      are passed from zone to zone. *)
  Definition mpi_zone (h : heap) (a : zam) (tn te : list Z) (zi z : nat)
    : res (mpi_file * (list Z * list Z)) :=
    do cross <- zone_cross_edges_count a (Z.of_nat zi);
    do tn' <- locate (n_glo h) tn 0 (z_nodes h z);
    do te' <- locate (e_glo h) te 0 (z_edges h z);
    do fn <- rmap (fun f => local_ids (n_glo h) tn' (f_nodes h f)) (z_faces h z);
    do fe <- rmap (fun f => local_ids (e_glo h) te' (f_edges h f)) (z_faces h z);
    do en <- rmap (fun e => local_ids (n_glo h) tn' (e_nodes h e)) (z_edges h z);
    do nb <- zone_cross_borders_count a (Z.of_nat zi);
    do line <- zone_cross_edges_array a (Z.of_nat zi);
    do bs <- border_lists h te' z 0 line;
    Ok (mkMpi (z_name h z) zi (length (z_nodes h z)) (length (z_edges h z)) cross (length (z_faces h z))
          (map (nodes_coord_slice h z) [0; 1; 2])
          (faces_global_ids_slice h z)
          (map (faces_data_slice h z) mpi_vars)
          fn fe en nb bs, (tn', te')).

  (** Loop over zones, grid.py:684. *)
  Fixpoint mpi_zones (h : heap) (a : zam) (tn te : list Z) (zi : nat) (zs : list nat)
    : res (list mpi_file) :=
    match zs with
    | [] => Ok []
    | z :: r =>
        do ft <- mpi_zone h a tn te zi z;
        let '(file, (tn', te')) := ft in
        do fs <- mpi_zones h a tn' te' (S zi) r;
        Ok (file :: fs)
    end.

  (** Contents of all files of Grid.store_mpi, grid.py:663-740.  (Simplification: when
      an exception is raised, the files written before are not represented.) *)
  Definition store_mpi_files (h : heap) : res (list mpi_file) :=
    do a <- zam_build h (g_edges h) (g_zones h);
    mpi_zones h a (repeat (-1)%Z (length (g_nodes h))) (repeat (-1)%Z (length (g_edges h)))
      0 (g_zones h).

  (** The written text of one file, grid.py:692-738. *)
  Definition zs_str (l : list Z) : str := join [sp] (map Z_str l).

  (** One border line, grid.py:734-738. *)
  Definition border_str (b : nat * list Z) : str :=
    lit "[" ++ nat_str (fst b) ++ lit "] " ++ concat (map (fun k => Z_str k ++ [sp]) (snd b)) ++ [nl].

  (** Text of one file, grid.py:692-738. *)
  Definition mpi_text (m : mpi_file) : str :=
    lit "TITLE=""" ++ mf_title m ++ lit """" ++ [nl] ++
    lit "VARIABLES=" ++
      join (lit ", ") (map (fun x => lit """" ++ x ++ lit """")
                           (map lit ["X"; "Y"; "Z"; "GloId"]%string ++ mpi_vars)) ++ [nl] ++
    lit "MPI=" ++ nat_str (mf_mpi m) ++ [nl] ++
    lit "NODES=" ++ nat_str (mf_nodes m) ++ [nl] ++
    lit "EDGES=" ++ nat_str (mf_edges m) ++ [nl] ++
    lit "CROSS-EDGES=" ++ nat_str (mf_cross m) ++ [nl] ++
    lit "FACES=" ++ nat_str (mf_faces m) ++ [nl] ++
    lit "NODES COORDINATES:" ++ [nl] ++
    concat (map (fun l => vals_str l ++ [sp; nl]) (mf_coords m)) ++
    lit "FACES DATA:" ++ [nl] ++
    zs_str (mf_gloids m) ++ [nl] ++
    concat (map (fun l => vals_str l ++ [sp; nl]) (mf_data m)) ++
    lit "FACE-NODE CONNECTIVITY LIST:" ++ [nl] ++
    concat (map (fun l => zs_str l ++ [nl]) (mf_fn m)) ++
    lit "FACE-EDGE CONNECTIVITY LIST:" ++ [nl] ++
    concat (map (fun l => zs_str l ++ [nl]) (mf_fe m)) ++
    lit "EDGE-NODE CONNECTIVITY LIST:" ++ [nl] ++
    concat (map (fun l => zs_str l ++ [nl]) (mf_en m)) ++
    lit "MPI-BORDERS=" ++ nat_str (mf_nborders m) ++ [nl] ++
    concat (map border_str (mf_borders m)).

  (** Name of the file, grid.py:685. *)
  Definition mpi_name (base ts sf : str) (zi : nat) : str :=
    base ++ lit "_" ++ pad0 5 (nat_str zi) ++ lit "_" ++ ts ++ sf.

  (** Grid.store_mpi, grid.py:663-740: the (name, text) pairs written. *)
  Definition store_mpi (base ts sf : str) (h : heap) : res (list (str * str)) :=
    do fs <- store_mpi_files h;
    Ok (map (fun m => (mpi_name base ts sf (mf_mpi m), mpi_text m)) fs).

  (** get_mpi_borders, crys.py:31-67 (the dictionary as the list of its items; the
      keys are the positions in the line, hence different). *)
  Definition get_mpi_borders (h : heap) (rank : nat) (a : zam) (z : nat) : res (list (nat * list Z)) :=
    do line <- zone_cross_edges_array a (Z.of_nat rank);
    do tbl <- locate (e_glo h) (repeat (-1)%Z (length (g_edges h))) 0 (z_edges h z);
    border_lists h tbl z 0 line.
End Mpi.
