(** Concrete data for the examples beside the theorems about split and merge run on directories. *)

From Coq Require Import ZArith NArith Ascii String Bool Lia List Permutation.
From Verif Require Import Py Utils UtilsSpec Heap GridModel GridSpec DecompSpec GridIO FileSpec StoreSpec Mpi Driver DriverSpec HeapLemmas StrategyProofs DriverProofs
  Samples SamplesIO SamplesStore SamplesDriver CycleSpec CycleCases SolverSpec SolverProofs SolverMain Stamps StampsSpec StampsProofs.
Import ListNotations.
Open Scope list_scope.
Open Scope nat_scope.

(** The plate split into two parts, stored under the name wing. *)
Definition wing_files : list (str * str) := match @store_mpi ZOps (lit "wing") (lit "000000000000") (lit ".cry") parted with Ok l => l | _ => [] end.
Lemma wing_read : @store_mpi ZOps (lit "wing") (lit "000000000000") (lit ".cry") parted = Ok wing_files /\ length wing_files = 2 /\
  forall i n c, nth_error wing_files i = Some (n, c) -> exists m, @read_cry ZOps c = Some m /\ nth_error parts i = Some m.
Proof.
  destruct (@split_read ZOps two_zones (lit "n2") [lit "B"] 1%Z empty_heap parted parts _ (lit "wing") (lit "000000000000") (lit ".cry") Z_faithful Zorder_ok two_zones_form two_zones_nd)
    as (files & E & L & _ & Q); [discriminate|exact parted_run|]. unfold wing_files. rewrite E. split; [reflexivity|].
  split; [rewrite L, <- (map_length mf_gloids), parts_ids; reflexivity|]. intros i n c H. exact (proj2 (Q i n c H)).
Qed.
Opaque wing_files.
Lemma wing_run : @split_run ZOps (lit "wing") (Some two_zones) (lit ".dat") (lit "n2") [lit "B"] 1%Z empty_heap = (Ok wing_files, parted).
Proof.
  exact (split_to_run (lit "wing") (lit "wing") (lit "000000000000") _ _ _ _ _ _ _ _ eq_refl parted_run (proj1 wing_read)).
Qed.

(** The directory: two time stamps, the answers of both parts, and other files. *)
Definition tm1 : str := lit "000000000010".
Definition tm2 : str := lit "000000000020".
Definition ans3 : str := text_of ["VARIABLES=""FaceId"", ""Q"""; "2 33"]%string.
Definition ans4 : str := text_of ["VARIABLES=""FaceId"", ""Q"""; "0 11"; "1 22"]%string.
Definition rows3 : list (Z * list Z) := [(2, [33])]%Z.
Definition rows4 : list (Z * list Z) := [(0, [11]); (1, [22])]%Z.
Lemma ans3_file : @calc_file ZOps ans3 [lit "Q"] rows3.
Proof. calc. Qed.
Lemma ans4_file : @calc_file ZOps ans4 [lit "Q"] rows4.
Proof. calc. Qed.
Definition wing_dir : list (str * str) :=
  [(lit "wing_00001_000000000020.txt", ans4); (lit "report.txt", lit "done"); (lit "wing_00000_000000000010.txt", ans1);
   (lit "wing_00001_000000000010.txt", ans2); (lit "wing_00000_000000000000.cry", []); (lit "wing_00000_000000000020.txt", ans3)].
Definition wing_vars (tm : str) : list str := if str_eqb tm tm1 then [lit "T"; lit "Hi"] else [lit "Q"].
Definition wing_tabs (tm : str) (i : nat) : list (Z * list Z) :=
  match i with 0 => if str_eqb tm tm1 then rows1 else rows3 | _ => if str_eqb tm tm1 then rows2 else rows4 end.

Lemma part_ids : forall i m, nth_error parts i = Some m -> nth_error [[2]; [0; 1]]%Z i = Some (mf_gloids m).
Proof. intros i m H. rewrite <- parts_ids. apply (map_nth_error mf_gloids). exact H. Qed.

Lemma some_eq : forall A (x y : A), Some x = Some y -> y = x.
Proof. intros A x y H. injection H. auto. Qed.

Lemma wing_solved : forall i n c t tab vars, nth_error wing_files i = Some (n, c) ->
  (forall m, nth_error parts i = Some m -> @computed ZOps vars m t tab) -> @solved ZOps vars c t tab.
Proof. intros i n c t tab vars H K. destruct (proj2 (proj2 wing_read) i n c H) as (m & R & P). exists m. split; [exact R|apply K; exact P]. Qed.

Lemma wing_file : forall i, i < 2 -> exists n c, nth_error wing_files i = Some (n, c).
Proof.
  intros i H. destruct (nth_error wing_files i) as [[n c]|] eqn:E; [exists n, c; reflexivity|].
  apply nth_error_None in E. rewrite (proj1 (proj2 wing_read)) in E. lia.
Qed.

Lemma comp3 : forall m, nth_error parts 0 = Some m -> @computed ZOps [lit "Q"] m ans3 rows3.
Proof.
  intros m H. apply part_ids in H. cbn in H. apply some_eq in H. split; [exact ans3_file|]. split; [rewrite H; apply Permutation_refl|]. intros r [<-|[]]. reflexivity.
Qed.
Lemma comp4 : forall m, nth_error parts 1 = Some m -> @computed ZOps [lit "Q"] m ans4 rows4.
Proof.
  intros m H. apply part_ids in H. cbn in H. apply some_eq in H. split; [exact ans4_file|]. split; [rewrite H; apply Permutation_refl|]. intros r [<-|[<-|[]]]; reflexivity.
Qed.

Lemma named : forall w tm i fn, fn = lit "wing" ++ lit "_" ++ w ++ lit "_" ++ tm ++ lit ".txt" -> all_digits w = true -> digits_val w = Z.of_nat i -> length w = 5 ->
  file_name (lit "wing") tm (lit ".txt") i fn.
Proof. intros w tm i fn E D V L. exists w. split; [exact E|]. split; [exact D|]. split; [exact V|]. rewrite L. auto. Qed.

Lemma wing_solver : @solver_dir ZOps (lit "wing") wing_files [tm1; tm2] wing_vars wing_tabs wing_dir.
Proof.
  destruct (wing_file 0 ltac:(lia)) as (n0 & c0 & F0). destruct (wing_file 1 ltac:(lia)) as (n1 & c1 & F1).
  split; [|split; [|split]].
  - cbn [map fst wing_dir]. repeat (constructor; [intros K; repeat (destruct K as [K|K]; [discriminate K|]); exact K|]). constructor.
  - intros tm [<-|[<-|[]]]; [constructor; [intros [K|[]]; discriminate K|]|]; (constructor; [intros []|constructor]).
  - intros fn t [E|[E|[E|[E|[E|[E|[]]]]]]]; injection E as <- <-.
    + right. exists tm2, 1, n1, c1. split; [right; left; reflexivity|]. split; [exact F1|]. split; [apply (named (lit "00001")); reflexivity|]. exact (wing_solved 1 n1 c1 _ _ _ F1 comp4).
    + left. vm_compute. reflexivity.
    + right. exists tm1, 0, n0, c0. split; [left; reflexivity|]. split; [exact F0|]. split; [apply (named (lit "00000")); reflexivity|].
      exact (wing_solved 0 n0 c0 _ _ _ F0 (fun m H => answers 0 m ans1 rows1 H eq_refl eq_refl)).
    + right. exists tm1, 1, n1, c1. split; [left; reflexivity|]. split; [exact F1|]. split; [apply (named (lit "00001")); reflexivity|].
      exact (wing_solved 1 n1 c1 _ _ _ F1 (fun m H => answers 1 m ans2 rows2 H eq_refl eq_refl)).
    + left. vm_compute. reflexivity.
    + right. exists tm2, 0, n0, c0. split; [right; left; reflexivity|]. split; [exact F0|]. split; [apply (named (lit "00000")); reflexivity|]. exact (wing_solved 0 n0 c0 _ _ _ F0 comp3).
  - intros tm i Ht Hi. rewrite (proj1 (proj2 wing_read)) in Hi.
    destruct Ht as [<-|[<-|[]]]; (destruct i as [|[|i]]; [| |lia]).
    + exists (lit "wing_00000_000000000010.txt"). split; [apply (named (lit "00000")); reflexivity|]. right. right. left. reflexivity.
    + exists (lit "wing_00001_000000000010.txt"). split; [apply (named (lit "00001")); reflexivity|]. right. right. right. left. reflexivity.
    + exists (lit "wing_00000_000000000020.txt"). split; [apply (named (lit "00000")); reflexivity|]. do 5 right. left. reflexivity.
    + exists (lit "wing_00001_000000000020.txt"). split; [apply (named (lit "00001")); reflexivity|]. left. reflexivity.
Qed.

(** A text left by an older run with more parts. *)
Definition old_ans : str := text_of ["VARIABLES=""FaceId"", ""T"", ""Hi"""; "0 98 99"]%string.
Definition new_dir : list (str * str) := [(lit "wing_00000_000000000010.txt", ans1); (lit "wing_00001_000000000010.txt", ans2)].
Definition old_dir : list (str * str) := new_dir ++ [(lit "wing_00002_000000000010.txt", old_ans)].
Definition stale := snd (@merge_run ZOps (lit "wing") (Some two_zones) old_dir empty_heap).
Definition stale_outs : list (str * str) := match fst (@merge_run ZOps (lit "wing") (Some two_zones) old_dir empty_heap) with Ok l => l | _ => [] end.
Lemma outs_pair : forall {F : FloatOps} (p : res (list (str * str)) * heap), OptionsCases.is_ok (fst p) = true ->
  p = (Ok (match fst p with Ok l => l | _ => [] end), snd p).
Proof. intros F [[x|x] h] H; try discriminate H; reflexivity. Qed.
Lemma stale_run : @merge_run ZOps (lit "wing") (Some two_zones) old_dir empty_heap = (Ok stale_outs, stale).
Proof.
  assert (E : OptionsCases.is_ok (fst (@merge_run ZOps (lit "wing") (Some two_zones) old_dir empty_heap)) = true) by (vm_compute; reflexivity).
  exact (outs_pair (@merge_run ZOps (lit "wing") (Some two_zones) old_dir empty_heap) E).
Qed.
Definition stale_text : str := snd (nth 0 stale_outs ([], [])).
Definition stale_heap := snd (@load ZOps true stale_text empty_heap).
Lemma stale_names : map fst stale_outs = [merged_name (lit "wing") tm1].
Proof. vm_compute. reflexivity. Qed.
Lemma stale_load : @load ZOps true stale_text empty_heap = (Ok tt, stale_heap).
Proof.
  assert (E : OptionsCases.is_ok (fst (@load ZOps true stale_text empty_heap)) = true) by (vm_compute; reflexivity).
  exact (unit_pair (@load ZOps true stale_text empty_heap) E).
Qed.
Lemma stale_data : map (f_data stale_heap) (g_faces stale_heap) =
  [[(lit "T", 98); (lit "Hi", 99)]; [(lit "T", 20); (lit "Hi", 21)]; [(lit "T", 30); (lit "Hi", 31)]]%Z.
Proof. vm_compute. reflexivity. Qed.
Opaque stale stale_outs stale_text stale_heap.
Lemma one_out : forall (l : list (str * str)) nm, map fst l = [nm] -> l = [(nm, snd (nth 0 l ([], [])))].
Proof. intros [|[a b] [|x l]] nm H; try discriminate H. cbn in H. injection H as ->. reflexivity. Qed.
Lemma stale_one : stale_outs = [(merged_name (lit "wing") tm1, stale_text)].
Proof. exact (one_out stale_outs _ stale_names). Qed.

Lemma new_solver : @solver_dir ZOps (lit "wing") wing_files [tm1] wing_vars wing_tabs new_dir.
Proof.
  destruct (wing_file 0 ltac:(lia)) as (n0 & c0 & F0). destruct (wing_file 1 ltac:(lia)) as (n1 & c1 & F1).
  split; [|split; [|split]].
  - cbn [map fst new_dir]. repeat (constructor; [intros K; repeat (destruct K as [K|K]; [discriminate K|]); exact K|]). constructor.
  - intros tm [<-|[]]. constructor; [intros [K|[]]; discriminate K|]. constructor; [intros []|constructor].
  - intros fn t [E|[E|[]]]; injection E as <- <-; right.
    + exists tm1, 0, n0, c0. split; [left; reflexivity|]. split; [exact F0|]. split; [apply (named (lit "00000")); reflexivity|].
      exact (wing_solved 0 n0 c0 _ _ _ F0 (fun m H => answers 0 m ans1 rows1 H eq_refl eq_refl)).
    + exists tm1, 1, n1, c1. split; [left; reflexivity|]. split; [exact F1|]. split; [apply (named (lit "00001")); reflexivity|].
      exact (wing_solved 1 n1 c1 _ _ _ F1 (fun m H => answers 1 m ans2 rows2 H eq_refl eq_refl)).
  - intros tm i Ht Hi. rewrite (proj1 (proj2 wing_read)) in Hi.
    destruct Ht as [<-|[]]; (destruct i as [|[|i]]; [| |lia]).
    + exists (lit "wing_00000_000000000010.txt"). split; [apply (named (lit "00000")); reflexivity|]. left. reflexivity.
    + exists (lit "wing_00001_000000000010.txt"). split; [apply (named (lit "00001")); reflexivity|]. right. left. reflexivity.
Qed.
Lemma first_data : forall A B (f : A -> B) l x r, map f l = x :: r -> exists a, nth_error l 0 = Some a /\ f a = x.
Proof. intros A B f [|a l] x r H; [discriminate H|]. cbn in H. injection H as H _. exists a. split; [reflexivity|exact H]. Qed.
