(** Cases for C130. *)

From Coq Require Import ZArith Reals Ascii String Bool List Lia.
From Verif Require Import Py Heap GridModel GridSpec GridIO FileSpec Samples SamplesIO SamplesStore Zam ZamSpec Info InfoSpec InfoCases ContentsSpec ContentsCases Double DoubleSpec DoubleQuality DoubleQualitySpec.
Import ListNotations.
Open Scope list_scope.
Open Scope nat_scope.

(** A zone without faces, before and after a zone with two faces. *)
Definition pieceE : piece := PZone (ln "ZONE T=""E""") (ln "NODES=0") (ln "ELEMENTS=0") (ln "DATAPACKING=BLOCK") (ln "ZONETYPE=FETRIANGLE")
  (ln "VARLOCATION=([4-5]=CELLCENTERED)") (map ln [""; ""; ""; ""; ""]%string) [].
Definition empty_first : str := List.concat (flat_map lines_of_piece (head_pieces ++ [pieceE; pieceA numsA connsA])).
Definition empty_last : str := List.concat (flat_map lines_of_piece (head_pieces ++ [pieceA numsA connsA; pieceE])).

Definition line_after {F : FloatOps} (t : str) : res str := match load true t empty_heap with (Ok tt, h) => quality_bounds h | (Raise e, _) => Raise e end.
Lemma line_after_inv : forall {F : FloatOps} t r, line_after t = Ok r -> exists h, load true t empty_heap = (Ok tt, h) /\ quality_bounds h = Ok r.
Proof. intros F t r. unfold line_after. generalize (load true t empty_heap). intros [[[]|e] h] E; [|discriminate E]. exists h. auto. Qed.
Lemma first_nan : @line_after ZOps empty_first = Ok (bounds_line (lit "nan") (lit "nan")).
Proof. vm_compute. reflexivity. Qed.
Lemma last_number : @line_after ZOps empty_last = Ok (bounds_line (lit "0.354") (lit "0.354")).
Proof. vm_compute. reflexivity. Qed.

Lemma hidden : exists t1 t2 p q hd h1 h2, t1 = List.concat (flat_map lines_of_piece (hd ++ [p; q])) /\ t2 = List.concat (flat_map lines_of_piece (hd ++ [q; p])) /\
  @load ZOps true t1 empty_heap = (Ok tt, h1) /\ @load ZOps true t2 empty_heap = (Ok tt, h2) /\
  @quality_bounds ZOps h1 = Ok (bounds_line (lit "nan") (lit "nan")) /\ @quality_bounds ZOps h2 = Ok (bounds_line (lit "0.354") (lit "0.354")).
Proof.
  destruct (@line_after_inv ZOps _ _ first_nan) as (h1 & A1 & B1). destruct (@line_after_inv ZOps _ _ last_number) as (h2 & A2 & B2).
  exact (ex_intro _ empty_first (ex_intro _ empty_last (ex_intro _ pieceE (ex_intro _ (pieceA numsA connsA) (ex_intro _ head_pieces (ex_intro _ h1 (ex_intro _ h2
    (conj eq_refl (conj eq_refl (conj A1 (conj A2 (conj B1 B2)))))))))))).
Qed.

(** The strip of three zones: every zone has outer edges. *)
Lemma strip6_outer : forall z, In z (g_zones strip6) -> z_faces strip6 z <> [] /\ (Z.of_nat (List.length (z_faces strip6 z)) <= 2 ^ 28)%Z /\ exists e, In e (z_edges strip6 z) /\ ~ @inside_zone ZOps strip6 z e.
Proof.
  assert (K : forall z e f, e_faces strip6 e = [f] -> ~ @inside_zone ZOps strip6 z e) by (intros z e f E (a & b & Q & _); rewrite E in Q; discriminate Q).
  intros z Hz. vm_compute in Hz. destruct Hz as [<-|[<-|[<-|[]]]].
  - split; [vm_compute; discriminate|]. split; [vm_compute; discriminate|]. exists 0. split; [vm_compute; auto|]. apply (K _ 0 0). vm_compute. reflexivity.
  - split; [vm_compute; discriminate|]. split; [vm_compute; discriminate|]. exists 6. split; [vm_compute; auto 10|]. apply (K _ 6 2). vm_compute. reflexivity.
  - split; [vm_compute; discriminate|]. split; [vm_compute; discriminate|]. exists 11. split; [vm_compute; auto 10|]. apply (K _ 11 5). vm_compute. reflexivity.
Qed.
