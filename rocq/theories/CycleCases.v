(** Concrete data for the examples beside the theorems about the cycle split - solver - merge. *)

From Coq Require Import ZArith Ascii String Bool Lia List Permutation.
From Verif Require Import Py Heap GridModel GridIO FileSpec StoreSpec Mpi Driver DriverSpec Samples SamplesIO SamplesStore SamplesDriver
  OptionsCases CycleSpec.
Import ListNotations.
Open Scope list_scope.
Open Scope nat_scope.

(** [two_zones] split into two parts of which the first one is the fixed zone B. *)
Definition parted := snd (@split ZOps (Some two_zones) (lit ".dat") (lit "n2") [lit "B"] 1%Z ToMpi empty_heap).
Definition parts : list (@mpi_file ZOps) := match fst (@split ZOps (Some two_zones) (lit ".dat") (lit "n2") [lit "B"] 1%Z ToMpi empty_heap) with Ok (WMpi ms) => ms | _ => [] end.
(** The same decomposition stored as one dat file. *)
Definition stored := snd (@split ZOps (Some two_zones) (lit ".dat") (lit "n2") [lit "B"] 1%Z ToDat empty_heap).
Definition stored_text : str := match fst (@split ZOps (Some two_zones) (lit ".dat") (lit "n2") [lit "B"] 1%Z ToDat empty_heap) with Ok (WDat s) => s | _ => [] end.

(** What the solver writes for the two parts. *)
Definition ans1 : str := text_of ["VARIABLES=""FaceId"", ""T"", ""Hi"""; "2 30 31"]%string.
Definition ans2 : str := text_of ["VARIABLES=""FaceId"", ""T"", ""Hi"""; "1 20 21"; "0 10 11"]%string.
Definition rows1 : list (Z * list Z) := [(2, [30; 31])]%Z.
Definition rows2 : list (Z * list Z) := [(1, [20; 21]); (0, [10; 11])]%Z.

Definition is_mpi {F : FloatOps} (r : res written) : bool := match r with Ok (WMpi _) => true | _ => false end.
Definition is_dat {F : FloatOps} (r : res written) : bool := match r with Ok (WDat _) => true | _ => false end.
Lemma mpi_pair : forall {F : FloatOps} (p : res written * heap), is_mpi (fst p) = true ->
  p = (Ok (WMpi (match fst p with Ok (WMpi ms) => ms | _ => [] end)), snd p).
Proof. intros F [[[x|x]|x] h] H; try discriminate H; reflexivity. Qed.
Lemma dat_pair : forall {F : FloatOps} (p : res written * heap), is_dat (fst p) = true ->
  p = (Ok (WDat (match fst p with Ok (WDat ms) => ms | _ => [] end)), snd p).
Proof. intros F [[[x|x]|x] h] H; try discriminate H; reflexivity. Qed.

Lemma parted_run : @split ZOps (Some two_zones) (lit ".dat") (lit "n2") [lit "B"] 1%Z ToMpi empty_heap = (Ok (WMpi parts), parted).
Proof. assert (E : is_mpi (fst (@split ZOps (Some two_zones) (lit ".dat") (lit "n2") [lit "B"] 1%Z ToMpi empty_heap)) = true) by (vm_compute; reflexivity). exact (mpi_pair (@split ZOps (Some two_zones) (lit ".dat") (lit "n2") [lit "B"] 1%Z ToMpi empty_heap) E). Qed.
Lemma stored_run : @split ZOps (Some two_zones) (lit ".dat") (lit "n2") [lit "B"] 1%Z ToDat empty_heap = (Ok (WDat stored_text), stored).
Proof. assert (E : is_dat (fst (@split ZOps (Some two_zones) (lit ".dat") (lit "n2") [lit "B"] 1%Z ToDat empty_heap)) = true) by (vm_compute; reflexivity). exact (dat_pair (@split ZOps (Some two_zones) (lit ".dat") (lit "n2") [lit "B"] 1%Z ToDat empty_heap) E). Qed.

Lemma parts_ids : map mf_gloids parts = [[2]; [0; 1]]%Z.
Proof. vm_compute. reflexivity. Qed.
Lemma parts_fn : map mf_fn parts = [[[0; 1; 2]]; [[0; 1; 2]; [0; 2; 3]]]%Z.
Proof. vm_compute. reflexivity. Qed.
Lemma parts_coords : map mf_coords parts =
  [[[1; 0; 1]; [0; 1; 1]; [0; 0; 0]]; [[0; 1; 0; -1]; [0; 0; 1; -1]; [0; 0; 0; 0]]]%Z.
Proof. vm_compute. reflexivity. Qed.

Lemma ans1_file : @calc_file ZOps ans1 [lit "T"; lit "Hi"] rows1.
Proof. calc. Qed.
Lemma ans2_file : @calc_file ZOps ans2 [lit "T"; lit "Hi"] rows2.
Proof. calc. Qed.

Lemma answers : forall i m t tab, nth_error parts i = Some m -> nth_error [ans1; ans2] i = Some t ->
  nth_error [rows1; rows2] i = Some tab -> @computed ZOps [lit "T"; lit "Hi"] m t tab.
Proof.
  intros i m t tab Hm Ht Htab. apply (map_nth_error mf_gloids) in Hm. rewrite parts_ids in Hm.
  destruct i as [|[|i]]; cbn in Hm, Ht, Htab.
  - apply (f_equal (fun o => match o with Some x => x | None => [] end)) in Hm. injection Ht as <-. injection Htab as <-.
    split; [exact ans1_file|]. split; [rewrite <- Hm; apply Permutation_refl|]. intros r [<-|[]]. reflexivity.
  - apply (f_equal (fun o => match o with Some x => x | None => [] end)) in Hm. injection Ht as <-. injection Htab as <-.
    split; [exact ans2_file|]. split; [rewrite <- Hm; apply perm_swap|]. intros r [<-|[<-|[]]]; reflexivity.
  - destruct i; discriminate Ht.
Qed.

(** The first part has the face with number 2 and these corners. *)
Lemma part_face : exists m, nth_error parts 0 = Some m /\ @cry_face ZOps m 0 2 [(1, 0, 0); (0, 1, 0); (1, 1, 0)]%Z.
Proof.
  destruct (nth_error parts 0) as [m|] eqn:E; [|apply (f_equal (option_map mf_gloids)) in E; rewrite <- nth_error_map, parts_ids in E; discriminate E].
  exists m. split; [reflexivity|].
  pose proof (map_nth_error mf_gloids _ _ E) as E1. rewrite parts_ids in E1. cbn in E1. apply (f_equal (fun o => match o with Some x => x | None => [] end)) in E1.
  pose proof (map_nth_error mf_fn _ _ E) as E2. rewrite parts_fn in E2. cbn in E2. apply (f_equal (fun o => match o with Some x => x | None => [] end)) in E2.
  pose proof (map_nth_error mf_coords _ _ E) as E3. rewrite parts_coords in E3. cbn in E3. apply (f_equal (fun o => match o with Some x => x | None => [] end)) in E3.
  clear E. split; [rewrite <- E1; reflexivity|]. exists [0; 1; 2]%Z. split; [rewrite <- E2; reflexivity|].
  repeat constructor; (do 3 eexists; split; [symmetry; exact E3|]; split; [lia|]; repeat split).
Qed.

(** Merging the answers into the stored file of the decomposition. *)
Definition remerged := snd (@merge_one ZOps stored_text [ans1; ans2] empty_heap).
Definition remerged_text : str := match fst (@merge_one ZOps stored_text [ans1; ans2] empty_heap) with Ok s => s | _ => [] end.
Definition reloaded := snd (@load ZOps true remerged_text empty_heap).
Lemma str_pair : forall {F : FloatOps} (p : res str * heap), is_ok (fst p) = true ->
  p = (Ok (match fst p with Ok s => s | _ => [] end), snd p).
Proof. intros F [[x|x] h] H; try discriminate H; reflexivity. Qed.
Lemma unit_pair : forall {F : FloatOps} (p : res unit * heap), is_ok (fst p) = true -> p = (Ok tt, snd p).
Proof. intros F [[[]|x] h] H; try discriminate H; reflexivity. Qed.
Lemma remerged_run : @merge_one ZOps stored_text [ans1; ans2] empty_heap = (Ok remerged_text, remerged).
Proof. assert (E : is_ok (fst (@merge_one ZOps stored_text [ans1; ans2] empty_heap)) = true) by (vm_compute; reflexivity). exact (str_pair (@merge_one ZOps stored_text [ans1; ans2] empty_heap) E). Qed.
Lemma reloaded_run : @load ZOps true remerged_text empty_heap = (Ok tt, reloaded).
Proof.
  assert (E : is_ok (fst (@load ZOps true remerged_text empty_heap)) = true) by (vm_compute; reflexivity).
  exact (unit_pair (@load ZOps true remerged_text empty_heap) E).
Qed.
Lemma reloaded_faces : map (fun f => (map (n_p reloaded) (f_nodes reloaded f), f_data reloaded f)) (g_faces reloaded) =
  [([(1, 0, 0); (0, 1, 0); (1, 1, 0)], [(lit "T", 10); (lit "Hi", 11)]);
   ([(0, 0, 0); (1, 0, 0); (0, 1, 0)], [(lit "T", 20); (lit "Hi", 21)]);
   ([(0, 0, 0); (0, 1, 0); (-1, -1, 0)], [(lit "T", 30); (lit "Hi", 31)])]%Z.
Proof. vm_compute. reflexivity. Qed.
Opaque parted parts stored stored_text remerged remerged_text reloaded.

Lemma listed_wrong : forall A B C (g1 : A -> B) (g2 : A -> C) l L p d d0, map (fun f => (g1 f, g2 f)) l = L ->
  In (p, d0) L -> (forall x, In x L -> fst x = p -> snd x <> d) ->
  (exists f, In f l /\ g1 f = p) /\ forall f, In f l -> g1 f = p -> g2 f <> d.
Proof.
  intros A B C g1 g2 l L p d d0 <- H1 H2. split.
  - apply in_map_iff in H1 as (f & E & Hf). exists f. split; [exact Hf|]. injection E as E _. exact E.
  - intros f Hf Ep. apply (H2 (g1 f, g2 f)); [|exact Ep]. apply in_map_iff. exists f. split; [reflexivity|exact Hf].
Qed.
Lemma wrong_row : forall x, In x
  [([(1, 0, 0); (0, 1, 0); (1, 1, 0)], [(lit "T", 10); (lit "Hi", 11)]);
   ([(0, 0, 0); (1, 0, 0); (0, 1, 0)], [(lit "T", 20); (lit "Hi", 21)]);
   ([(0, 0, 0); (0, 1, 0); (-1, -1, 0)], [(lit "T", 30); (lit "Hi", 31)])]%Z ->
  fst x = [(1, 0, 0); (0, 1, 0); (1, 1, 0)]%Z -> snd x <> dict_of str_dec (combine [lit "T"; lit "Hi"] [30; 31]%Z).
Proof. intros x [<-|[<-|[<-|[]]]] E K; [vm_compute in K; discriminate K| |]; discriminate E. Qed.

(** No face with the corners of the face number 2 has the values computed for it. *)
Lemma remerged_wrong : let ps := [(1, 0, 0); (0, 1, 0); (1, 1, 0)]%Z in
  (exists f, In f (g_faces reloaded) /\ map (n_p reloaded) (f_nodes reloaded f) = ps) /\
  forall f, In f (g_faces reloaded) -> map (n_p reloaded) (f_nodes reloaded f) = ps ->
    f_data reloaded f <> dict_of str_dec (combine [lit "T"; lit "Hi"] [30; 31]%Z).
Proof. exact (listed_wrong _ _ _ (fun f => map (n_p reloaded) (f_nodes reloaded f)) (f_data reloaded) _ _ _ _ _ reloaded_faces (or_introl eq_refl) wrong_row). Qed.
