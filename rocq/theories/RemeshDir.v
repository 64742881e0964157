(** Model of the program remesh.py over files: remesh.py:39-92.

    A path is relative or absolute; empty parts and parts '.' do not matter; links and parts '..'
    are not modelled.  A disk gives the text of the file with a path. *)

From Coq Require Import ZArith Reals Ascii String Bool List.
From Verif Require Import Py TextLemmas Heap GridModel GridIO Remesh Programs Options.
Import ListNotations.
Open Scope list_scope.

Definition path := (bool * list str)%type.

(** The file that the operating system opens for a path written as text (remesh.py:78 and
    remesh.py:92 pass such texts to `open`). *)
Definition parts (s : str) : path :=
  (prefixb (lit "/") s, filter (fun c => negb (str_eqb c [] || str_eqb c (lit "."))) (split_on "/"%char s)).

Definition path_dec : forall p q : path, {p = q} + {p <> q}.
Proof. decide equality; [apply (list_eq_dec str_dec)|apply bool_dec]. Defined.

Definition disk := path -> option str.

(** `open(p, 'w')` and the writing of the text, Grid.store of gsu/grid.py. *)
Definition put (d : disk) (p : path) (t : option str) : disk := fun q => if path_dec q p then t else d q.

(** The options -d and -g, remesh.py:41-42. *)
Inductive source := Dir (s : str) | One (g : str).

(** The grids to be remeshed, remesh.py:49-58 and 75; [listing] is what os.listdir returns. *)
Definition meshes_of (src : source) (listing : list str) : list str :=
  filter (ends_with (lit ".dat")) (match src with Dir s => map (fun n => s ++ lit "/" ++ n) listing | One g => [g] end).

Section RemeshDir.
  (** What is stored for the text of a grid (remesh.py:78-92 for one grid), and what a failed
      run leaves in the file to be stored (nothing is assumed about it: Grid.store may stop in
      the middle of the file). *)
  Variables (job : str -> res str) (left : str -> option str -> option str).

  (** The loop over the grids, remesh.py:77-92.  A grid that is no file raises (here
      always Exception; `open` of Grid.load, gsu/grid.py:488).  Simplification: -v is given at most once, so no grid but the
      result is stored, and no report (remesh.py:97-101). *)
  Fixpoint remesh_meshes (outdir : str) (ms : list str) (d : disk) : res unit * disk :=
    match ms with
    | [] => (Ok tt, d)
    | m :: r =>
        match d (parts m) with
        | None => (Raise EException, d)
        | Some text =>
            match job text with
            | Ok out => remesh_meshes outdir r (put d (parts (remesh_name outdir m)) (Some out))
            | Raise e => (Raise e, put d (parts (remesh_name outdir m)) (left text (d (parts (remesh_name outdir m)))))
            end
        end
    end.

  (** remesh.py:39-92: the options -d or -g and -o; the directory of -o is made if there is none. *)
  Definition remesh_main (src : source) (outdir : str) (listing : list str) (d : disk) : res unit * disk :=
    remesh_meshes outdir (meshes_of src listing) d.
End RemeshDir.

(** One grid of remesh.py:78-92: a new Grid, so nothing of the grids before is used. *)
Definition mesh_job {F : FloatOps} (real : val -> R) (near : R -> val) (f : option (json R)) (text : str) : res str :=
  fst (remesh_program real near f false text empty_heap).
