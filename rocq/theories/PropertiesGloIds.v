(** C115: the numbers printed before and after a transformation of a loaded grid.

    Model: GloIds.v (with Atomic.v, GridIO.v).  Specification vocabulary: GloIdsSpec.v, AtomicSpec.v,
    AtomicActs.v, CollapseSpec.v, FileSpec.v, DriverSpec.v. *)

From Coq Require Import ZArith Ascii String Bool Lia List Permutation.
From Verif Require Import Py Heap GridModel GridSpec GridIO FileSpec DriverSpec Samples SamplesIO SamplesStore SamplesAtomic Atomic AtomicSpec AtomicActs AtomicFinal
  CollapseSpec GloIds GloIdsSpec GloIdsProofs GloIdsCases.
Import ListNotations.
Open Scope list_scope.
Open Scope nat_scope.

(** C115, case_015.  The first face is divided by its centroid, which is not the place of a node.  The lists
    printed first are 0 .. n-1 in order, the lists printed last are 0 .. n-1 in some order for two more faces,
    three more edges and one more node. *)
Theorem C115_divide : forall {F : FloatOps} cen text h hl evs f r, load true text (new_grid h) = (Ok tt, hl) ->
  file_form [] (file_lines text) evs -> no_degenerate (zones_of evs) ->
  g_faces hl = f :: r -> new_point hl (centroid cen hl f) ->
  let nf := faces_in (zones_of evs) in let nn := length (firsts (all_pts (zones_of evs))) in
  exists before after ne h', divide_case cen text h = (Ok (before, after), h') /\
    in_order before nf ne nn /\ in_some_order after (nf + 2) (ne + 3) (nn + 1).
Proof. exact @divide_ids. Qed.
Print Assumptions C115_divide.

(** C115, case_016.  The longest edge of the first face is flipped if it can be. *)
Theorem C115_flip : forall {F : FloatOps} text h hl evs f r, order_ok -> load true text (new_grid h) = (Ok tt, hl) ->
  file_form [] (file_lines text) evs -> no_degenerate (zones_of evs) -> no_double_faces hl ->
  g_faces hl = f :: r -> (forall e, In e (f_edges hl f) -> free_diagonal hl e) ->
  let nf := faces_in (zones_of evs) in let nn := length (firsts (all_pts (zones_of evs))) in
  exists before after ne h', flip_case text h = (Ok (before, after), h') /\
    in_order before nf ne nn /\ in_some_order after nf ne nn.
Proof. exact @flip_ids. Qed.
Print Assumptions C115_flip.

(** C115, case_017.  The first edge of the first face that begins with an inner edge is divided by the
    centroid of the face. *)
Theorem C115_cut : forall {F : FloatOps} cen text h hl evs f e, load true text (new_grid h) = (Ok tt, hl) ->
  file_form [] (file_lines text) evs -> no_degenerate (zones_of evs) -> no_double_faces hl ->
  first_with hl 2 f e -> new_point hl (centroid cen hl f) ->
  let nf := faces_in (zones_of evs) in let nn := length (firsts (all_pts (zones_of evs))) in
  exists before after ne h', cut_case cen text h = (Ok (before, after), h') /\
    in_order before nf ne nn /\ in_some_order after (nf + 2) (ne + 3) (nn + 1).
Proof. exact @cut_ids. Qed.
Print Assumptions C115_cut.

(** C115, case_019.  The same with a border edge. *)
Theorem C115_single : forall {F : FloatOps} cen text h hl evs f e, load true text (new_grid h) = (Ok tt, hl) ->
  file_form [] (file_lines text) evs -> no_degenerate (zones_of evs) ->
  first_with hl 1 f e -> new_point hl (centroid cen hl f) ->
  let nf := faces_in (zones_of evs) in let nn := length (firsts (all_pts (zones_of evs))) in
  exists before after ne h', single_case cen text h = (Ok (before, after), h') /\
    in_order before nf ne nn /\ in_some_order after (nf + 1) (ne + 2) (nn + 1).
Proof. exact @single_ids. Qed.
Print Assumptions C115_single.

(** C115, case_020.  A border edge and then an inner edge is divided by two new points. *)
Theorem C115_two : forall {F : FloatOps} cen lo hi text h hl evs f e h1 f2 e2, load true text (new_grid h) = (Ok tt, hl) ->
  file_form [] (file_lines text) evs -> no_degenerate (zones_of evs) -> no_double_faces hl ->
  first_with hl 1 f e -> (let p := centroid cen hl f in new_point hl (lo p) /\ new_point hl (hi p) /\ rnd (lo p) <> rnd (hi p)) ->
  two_step cen lo hi 1 hl = (Ok tt, h1) ->
  first_with h1 2 f2 e2 -> (let p := centroid cen h1 f2 in new_point h1 (lo p) /\ new_point h1 (hi p) /\ rnd (lo p) <> rnd (hi p)) ->
  let nf := faces_in (zones_of evs) in let nn := length (firsts (all_pts (zones_of evs))) in
  exists before after later ne h', two_case cen lo hi text h = (Ok (before, after, later), h') /\
    in_order before nf ne nn /\ in_some_order after (nf + 2) (ne + 4) (nn + 2) /\ in_some_order later (nf + 6) (ne + 10) (nn + 4).
Proof. exact @two_ids. Qed.
Print Assumptions C115_two.

(** C115.  If no face begins with an edge of the needed kind, the search runs over the end of the list of
    faces: IndexError, the grid is as it was loaded. *)
Theorem C115_none : forall {F : FloatOps} cen lo hi text h hl evs, load true text (new_grid h) = (Ok tt, hl) ->
  file_form [] (file_lines text) evs -> no_degenerate (zones_of evs) ->
  ((forall f e, In f (g_faces hl) -> ~ begins_with hl 2 f e) ->
     cut_case cen text h = (Raise EIndexError, hl) /\ collapse_case text h = (Raise EIndexError, hl)) /\
  ((forall f e, In f (g_faces hl) -> ~ begins_with hl 1 f e) ->
     single_case cen text h = (Raise EIndexError, hl) /\ two_case cen lo hi text h = (Raise EIndexError, hl)).
Proof. exact @none_ids. Qed.
Print Assumptions C115_none.

(** C115, case_018.  The first edge of the first face that begins with an inner edge is contracted.  (The ends
    can be made one node.)  The lists printed last are 0 .. n-1 in some order for two faces, three edges and one
    node less exactly if none of the deleted faces, edges and nodes was among the last two faces, three edges
    and one node of the loaded grid. *)
Theorem C115_collapse_partial : forall {F : FloatOps} text h hl evs f e f1 f2 n1 n2 n3 n4, load true text (new_grid h) = (Ok tt, hl) ->
  file_form [] (file_lines text) evs -> no_degenerate (zones_of evs) -> no_double_faces hl ->
  first_with hl 2 f e -> e_faces hl e = [f1; f2] -> e_nodes hl e = [n1; n2] ->
  In n3 (f_nodes hl f1) -> n3 <> n1 -> n3 <> n2 -> In n4 (f_nodes hl f2) -> n4 <> n1 -> n4 <> n2 ->
  contractible hl f1 f2 n1 n2 n3 n4 ->
  let nf := faces_in (zones_of evs) in let nn := length (firsts (all_pts (zones_of evs))) in
  exists before after ne h' e1 e2, In e1 (g_edges hl) /\ Permutation (e_nodes hl e1) [n2; n3] /\
    In e2 (g_edges hl) /\ Permutation (e_nodes hl e2) [n2; n4] /\
    collapse_case text h = (Ok (before, after), h') /\ in_order before nf ne nn /\
    (in_some_order after (nf - 2) (ne - 3) (nn - 1) <->
     not_at_end [f1; f2] (g_faces hl) 2 /\ not_at_end [e; e1; e2] (g_edges hl) 3 /\ not_at_end [n2] (g_nodes hl) 1).
Proof. exact @collapse_ids. Qed.
Print Assumptions C115_collapse_partial.

(** The conditions of these theorems hold for the file of six faces around a node and for the file of two zones. *)
Definition high (a b c : @pt ZOps) : @pt ZOps :=
  let '(x1, y1, _) := a in let '(x2, y2, _) := b in let '(x3, y3, _) := c in (x1 + x2 + x3, y1 + y2 + y3, 7)%Z.
Definition lower (p : @pt ZOps) : @pt ZOps := let '(x, y, z) := p in (x - 1, y - 1, z - 1)%Z.
Definition upper (p : @pt ZOps) : @pt ZOps := let '(x, y, z) := p in (x + 1, y + 1, z + 1)%Z.

Example C115_example : load true fan (new_grid empty_heap) = (Ok tt, fan_heap) /\ file_form [] (file_lines fan) fan_evs /\ no_degenerate (zones_of fan_evs) /\
  no_double_faces fan_heap /\ @order_ok ZOps /\ g_faces fan_heap = [0; 1; 2; 3; 4; 5] /\ new_point fan_heap (centroid high fan_heap 0) /\
  (forall e, In e (f_edges fan_heap 0) -> free_diagonal fan_heap e) /\ first_with fan_heap 2 0 0 /\
  (forall f e, In f (g_faces fan_heap) -> ~ begins_with fan_heap 1 f e) /\
  contractible fan_heap 0 1 2 0 1 3 /\
  not_at_end [0; 1] (g_faces fan_heap) 2 /\ not_at_end [0; 2; 3] (g_edges fan_heap) 3 /\ not_at_end [0] (g_nodes fan_heap) 1 /\
  e_nodes fan_heap 0 = [2; 0] /\ e_nodes fan_heap 2 = [0; 1] /\ e_nodes fan_heap 3 = [0; 3].
Proof.
  destruct fan_edge as (E1 & E2 & E3 & E4 & E5 & E6 & E7).
  split; [exact fan_run|]. split; [exact fan_form|]. split; [exact fan_nd|]. split; [exact fan_single|]. split; [exact Zorder_ok|]. split; [exact E5|].
  split; [apply new_pointb_ok; vm_compute; reflexivity|].
  split.
  { assert (K : forallb (free_diagonalb fan_heap) (f_edges fan_heap 0) = true) by (vm_compute; reflexivity).
    rewrite forallb_forall in K. intros e He. apply free_diagonalb_ok. exact (K e He). }
  split; [exact fan_first|]. split.
  { assert (K : forallb (fun f => match f_edges fan_heap f with e :: _ => negb (Nat.eqb (length (e_faces fan_heap e)) 1) | [] => true end) (g_faces fan_heap) = true)
      by (vm_compute; reflexivity).
    rewrite forallb_forall in K. intros f e Hf (r & Er & L). specialize (K f Hf). cbv beta in K. rewrite Er, L in K. discriminate K. }
  split; [exact fan_contractible|].
  split; [rewrite E5; exists [0; 1; 2; 3], [4; 5]; split; [reflexivity|]; split; [reflexivity|]; intros x Hx Hy; cbn in Hx, Hy; lia|].
  split; [rewrite E6; exists [0; 1; 2; 3; 4; 5; 6; 7; 8], [9; 10; 11]; split; [reflexivity|]; split; [reflexivity|]; intros x Hx Hy; cbn in Hx, Hy; lia|].
  split; [rewrite E7; exists [0; 1; 2; 3; 4; 5], [6]; split; [reflexivity|]; split; [reflexivity|]; intros x Hx Hy; cbn in Hx, Hy; lia|].
  vm_compute. auto.
Qed.

Example C115_border_example : load true two_zones (new_grid empty_heap) = (Ok tt, plate) /\ first_with plate 1 0 0 /\
  new_point plate (centroid high plate 0) /\
  (let p := centroid high plate 0 in new_point plate (lower p) /\ new_point plate (upper p) /\ rnd (lower p) <> rnd (upper p)) /\
  let h1 := snd (two_step high lower upper 1 plate) in fst (two_step high lower upper 1 plate) = Ok tt /\
  first_with h1 2 1 1 /\
  (let p := centroid high h1 1 in new_point h1 (lower p) /\ new_point h1 (upper p) /\ rnd (lower p) <> rnd (upper p)).
Proof.
  split; [exact plate_run|]. split; [apply first_withb_ok; vm_compute; reflexivity|].
  split; [apply new_pointb_ok; vm_compute; reflexivity|].
  split; [split; [apply new_pointb_ok; vm_compute; reflexivity|]; split; [apply new_pointb_ok; vm_compute; reflexivity|vm_compute; discriminate]|].
  split; [vm_compute; reflexivity|].
  split; [apply first_withb_ok; vm_compute; reflexivity|].
  split; [apply new_pointb_ok; vm_compute; reflexivity|]. split; [apply new_pointb_ok; vm_compute; reflexivity|vm_compute; discriminate].
Qed.

(** C115 is false for case_018 in general: a number is lacking in the lists printed last if the deleted node
    was the last one of the file. *)
Theorem C115_collapse_refuted : exists text h hl evs, @load ZOps true text (new_grid h) = (Ok tt, hl) /\
  file_form [] (file_lines text) evs /\ no_degenerate (zones_of evs) /\ no_double_faces hl /\
  (exists f1 f2 n1 n2 n3 n4, first_with hl 2 f1 0 /\ e_faces hl 0 = [f1; f2] /\ e_nodes hl 0 = [n1; n2] /\ contractible hl f1 f2 n1 n2 n3 n4) /\
  let nf := faces_in (zones_of evs) in let nn := length (firsts (all_pts (zones_of evs))) in
  exists before after ne h', collapse_case text h = (Ok (before, after), h') /\
    in_order before nf ne nn /\ ~ in_some_order after (nf - 2) (ne - 3) (nn - 1).
Proof.
  destruct fan2_edge as (E1 & E2 & _).
  exists fan2, empty_heap, fan2_heap, fan2_evs. split; [exact fan2_run|]. split; [exact fan2_form|]. split; [exact fan2_nd|].
  split; [exact fan2_single|]. split; [exists 0, 1, 1, 6, 0, 2; split; [exact fan2_first|]; split; [exact E1|]; split; [exact E2|exact fan2_contractible]|].
  exact fan2_numbers.
Qed.
Print Assumptions C115_collapse_refuted.
