(** Sample cases for refine.py. *)

From Coq Require Import ZArith NArith Bool Lia List Permutation Sorted.
From Verif Require Import Py PyLemmas Heap HeapLemmas GridModel GridSpec DecompProofs Atomic AtomicSpec AtomicActs AtomicFinal PatchDone AtomicMain AtomicSeq
  Refine RefineSpec RefineProofs RefinePrep Samples SamplesAtomic.
Import ListNotations.
Open Scope list_scope.
Open Scope nat_scope.

(** Exact geometry on points with integer coordinates, taken as multiples of 1.0e-10: then
    Vect.__eq__ (vect.py:281-289) is equality, Vect.__lt__ (vect.py:262-277) is the
    lexicographic order, and math.isclose compares the difference with 1.0e-9 of the greater
    number.  The class of a point is found without rounding of areas. *)
Definition vsub (p q : Z * Z * Z) : Z * Z * Z :=
  let '(a, b, c) := p in let '(d, e, f) := q in (a - d, b - e, c - f)%Z.
Definition vcross (p q : Z * Z * Z) : Z * Z * Z :=
  let '(a, b, c) := p in let '(d, e, f) := q in (b * f - c * e, c * d - a * f, a * e - b * d)%Z.
Definition vdot (p q : Z * Z * Z) : Z :=
  let '(a, b, c) := p in let '(d, e, f) := q in (a * d + b * e + c * f)%Z.
Definition pt_eqb (p q : Z * Z * Z) : bool :=
  let '(a, b, c) := p in let '(d, e, f) := q in (a =? d)%Z && (b =? e)%Z && (c =? f)%Z.
Definition span (a b c : Z * Z * Z) : Z * Z * Z := vcross (vsub b a) (vsub c a).
Definition zflat (a b c : Z * Z * Z) : bool := pt_eqb (span a b c) (0, 0, 0)%Z.
Definition zclass (t : @tri ZOps) (p : Z * Z * Z) : nat :=
  let n := span (t_a t) (t_b t) (t_c t) in
  let parts := [span (t_a t) (t_b t) p; span (t_a t) p (t_c t); span p (t_b t) (t_c t)] in
  if forallb (fun m => pt_eqb (vcross m n) (0, 0, 0)%Z && (0 <=? vdot m n)%Z) parts && (vdot n (vsub p (t_a t)) =? 0)%Z
  then length (filter (fun m => negb (pt_eqb m (0, 0, 0)%Z)) parts) else 0.
Definition zclose1 (x y : Z) : bool := (1000000000 * Z.abs (x - y) <=? Z.max (Z.abs x) (Z.abs y))%Z.
Definition zclose (p q : Z * Z * Z) : bool :=
  let '(a, b, c) := p in let '(d, e, f) := q in zclose1 a d && zclose1 b e && zclose1 c f.
Definition zltb (p q : Z * Z * Z) : bool :=
  let '(a, b, c) := p in let '(d, e, f) := q in
  if (a =? d)%Z && (b =? e)%Z && (c <? f)%Z then true else if (a =? d)%Z && (b <? e)%Z then true else (a <? d)%Z.
Fixpoint zput (p : Z * Z * Z) (l : list (Z * Z * Z)) : list (Z * Z * Z) :=
  match l with [] => [p] | q :: r => if zltb q p then q :: zput p r else p :: l end.
Definition zsort (l : list (Z * Z * Z)) : list (Z * Z * Z) := fold_right zput [] l.

Definition ZGeo : @geometry ZOps := @MkGeo ZOps zclass zflat pt_eqb zclose zsort.

Lemma pt_eqb_ok : forall p q, pt_eqb p q = true <-> p = q.
Proof.
  intros [[a b] c] [[d e] f]. cbn. rewrite !andb_true_iff, !Z.eqb_eq. split; [intros ((-> & ->) & ->); auto|intros E; injection E as -> -> ->; auto].
Qed.

Lemma zsort_perm : forall l, Permutation (zsort l) l.
Proof.
  assert (P : forall p l, Permutation (zput p l) (p :: l)).
  { intros p l. induction l as [|q l IH]; cbn; auto. destruct (zltb q p); auto. rewrite IH. constructor. }
  induction l as [|x l IH]; cbn; auto. rewrite P. auto.
Qed.

(** Different places of different nodes. *)
Lemma tells_ok : forall h, nodes_merged h -> tells ZGeo h.
Proof.
  intros h (N & _ & E) n m Hn Hm. cbn [same ZGeo]. rewrite pt_eqb_ok. split; [|intros ->; auto].
  intros K. apply (LoadMain.NoDup_map_inj _ _ (n_rc h) (g_nodes h)); auto. rewrite (E n Hn), (E m Hm). congruence.
Qed.

Definition triangle_of (h : @heap ZOps) (f : nat) : @tri ZOps :=
  match get_triangle h f with Ok t => t | Raise _ => MkTri (0, 0, 0)%Z (0, 0, 0)%Z (0, 0, 0)%Z f end.

(** A point on the side between the nodes 0 and 1 of the grid of six faces, two points on the
    side between 4 and 0 of the face 2, a point inside the face 1, two points that ask for
    nothing. *)
Definition tasks : list (@tri ZOps * list (Z * Z * Z)) :=
  [(triangle_of wheel 0, [(8, 0, 4); (500, 0, 0)]%Z);
   (triangle_of wheel 2, [(-8, 0, 4); (-24, 0, 2)]%Z);
   (triangle_of wheel 1, [(20, 40, 0); (0, 32, 1)]%Z);
   (triangle_of wheel 4, [(-4, -8, 4); (4, -8, 4)]%Z)].
Definition wishes : list (@request ZOps) :=
  [RSide 0 0 1 (8, 0, 4)%Z; RTwo 2 4 0 (-8, 0, 4)%Z (-24, 0, 2)%Z; RInner 1 (0, 32, 1)%Z; RNone].

Ltac pick1 := left; vm_compute; repeat split; reflexivity.
Ltac pick2 := right; left; vm_compute; repeat split; reflexivity.
Ltac pick3 := right; right; vm_compute; repeat split; reflexivity.
Ltac side := first [pick1|pick2|pick3].
Ltac keeps := repeat first [apply sub_nil | apply sub_keep; [vm_compute; lia|] | apply sub_drop; [vm_compute; lia|]].

Lemma tasks_ask : Forall2 (asks ZGeo wheel) tasks wishes.
Proof.
  constructor; [|constructor; [|constructor; [|constructor; [|constructor]]]].
  - exists 0, 1, 2, [(8, 0, 4)%Z]. split; [mem|]. do 4 (split; [vm_compute; reflexivity|]). split; [cbn [snd]; keeps|].
    split; [reflexivity|]. split; [reflexivity|]. split; [vm_compute; reflexivity|]. side.
  - exists 0, 3, 4, [(-8, 0, 4)%Z; (-24, 0, 2)%Z]. split; [mem|]. do 4 (split; [vm_compute; reflexivity|]). split; [cbn [snd]; keeps|].
    split; [reflexivity|]. split; [reflexivity|]. split; [vm_compute; reflexivity|]. split; [vm_compute; reflexivity|]. split; side.
  - exists 0, 2, 3, [(0, 32, 1)%Z]. split; [mem|]. do 4 (split; [vm_compute; reflexivity|]). split; [cbn [snd]; keeps|].
    split; [reflexivity|]. split; [reflexivity|]. vm_compute. discriminate.
  - exists 0, 5, 6, [(-4, -8, 4)%Z; (4, -8, 4)%Z]. split; [mem|]. do 4 (split; [vm_compute; reflexivity|]). split; [cbn [snd]; keeps|].
    right; right. exists (-4, -8, 4)%Z, (4, -8, 4)%Z. split; [reflexivity|]. right; right. exists 0, 5, 6, 0. split; [side|]. split; [side|]. discriminate.
Qed.


Lemma wishes_apart : apart_requests wheel wishes.
Proof.
  repeat constructor; cbn [at_face divides]; intros f K; try contradiction; subst f; try (intros E; discriminate E);
    intros (_ & U & W); revert U W; vm_compute; intros U W;
    repeat (destruct U as [U|U]; [try discriminate U|]); repeat (destruct W as [W|W]; [try discriminate W|]); try contradiction.
Qed.

Lemma wishes_new : new_points wheel (flat_map asked wishes).
Proof.
  split.
  - vm_compute. repeat constructor; cbn; intros K; repeat (destruct K as [K|K]; [discriminate K|]); contradiction.
  - intros p Hp. apply new_pointb_ok. revert p Hp.
    apply Forall_forall. vm_compute. repeat constructor.
Qed.

(* ---------------------------------------------------------------- *)
(** ** A triangle asks for one thing *)

Lemma side_one : forall {F : FloatOps} (G : geometry) t n1 n2 n3 p u v u' v', on_side G t n1 n2 n3 p u v -> on_side G t n1 n2 n3 p u' v' ->
  u = u' /\ v = v'.
Proof.
  intros F G t n1 n2 n3 p u v u' v' A B. unfold on_side in A, B. cbv zeta in A, B.
  destruct A as [(A1 & -> & ->)|[(A1 & A2 & -> & ->)|(A1 & A2 & -> & ->)]], B as [(B1 & -> & ->)|[(B1 & B2 & -> & ->)|(B1 & B2 & -> & ->)]];
    rewrite A1 in B1; try discriminate B1; try rewrite A2 in B2; try discriminate B2; auto.
Qed.

Lemma asks_one : forall {F : FloatOps} (G : geometry) h x r r', asks G h x r -> asks G h x r' -> r = r'.
Proof.
  intros F G h [t pts] r r' (n1 & n2 & n3 & k & _ & E & _ & _ & _ & K & A) (m1 & m2 & m3 & k' & _ & E' & _ & _ & _ & K' & B).
  rewrite E in E'. injection E' as <- <- <-. cbn [fst snd] in *.
  pose proof (sublist_unique _ _ _ _ _ K K') as Q. subst k'. clear K K' E.
  destruct r as [|g p|g u v p|g u v p q], r' as [|g' p'|g' u' v' p'|g' u' v' p' q']; cbv beta iota in A, B; auto;
  repeat match goal with H : _ /\ _ |- _ => destruct H | H : _ \/ _ |- _ => destruct H | H : exists _, _ |- _ => destruct H end; subst;
  repeat match goal with H : _ :: _ = _ :: _ |- _ => injection H; clear H; intros; subst end;
  repeat match goal with H : [] = _ :: _ |- _ => discriminate H | H : _ :: _ = [] |- _ => discriminate H
    | H : 3 <= length _ |- _ => cbn [length] in H; exfalso; lia end;
  try contradiction; auto;
  repeat match goal with A : on_side _ _ _ _ _ ?p _ _, B : on_side _ _ _ _ _ ?p _ _ |- _ => destruct (side_one _ _ _ _ _ _ _ _ _ _ A B); clear B; subst end;
  try contradiction; auto.
  all: exfalso; match goal with H : (_, _) <> (_, _) |- _ => apply H; reflexivity end.
Qed.

(* ---------------------------------------------------------------- *)
(** ** What goes wrong *)

(** The same point of the side between two faces, reported for both of them. *)
Definition twice : list (@tri ZOps * list (Z * Z * Z)) :=
  [(triangle_of wheel 0, [(8, 0, 4)%Z]); (triangle_of wheel 5, [(8, 0, 4)%Z])].

Lemma twice_asks : Forall2 (asks ZGeo wheel) twice [RSide 0 0 1 (8, 0, 4)%Z; RSide 5 1 0 (8, 0, 4)%Z].
Proof.
  constructor; [|constructor; [|constructor]].
  - exists 0, 1, 2, [(8, 0, 4)%Z]. split; [mem|]. do 4 (split; [vm_compute; reflexivity|]). split; [cbn [snd]; keeps|].
    split; [reflexivity|]. split; [reflexivity|]. split; [vm_compute; reflexivity|]. side.
  - exists 0, 6, 1, [(8, 0, 4)%Z]. split; [mem|]. do 4 (split; [vm_compute; reflexivity|]). split; [cbn [snd]; keeps|].
    split; [reflexivity|]. split; [reflexivity|]. split; [vm_compute; reflexivity|]. side.
Qed.

Lemma twice_fails : fst (refine ZGeo twice wheel) = Raise EIndexError.
Proof. vm_compute. reflexivity. Qed.

(** A point of the side between two faces, and a point inside one of them. *)
Definition beside : list (@tri ZOps * list (Z * Z * Z)) :=
  [(triangle_of wheel 0, [(8, 0, 4)%Z]); (triangle_of wheel 5, [(24, -16, 1)%Z])].

Lemma beside_asks : Forall2 (asks ZGeo wheel) beside [RSide 0 0 1 (8, 0, 4)%Z; RInner 5 (24, -16, 1)%Z].
Proof.
  constructor; [|constructor; [|constructor]].
  - exists 0, 1, 2, [(8, 0, 4)%Z]. split; [mem|]. do 4 (split; [vm_compute; reflexivity|]). split; [cbn [snd]; keeps|].
    split; [reflexivity|]. split; [reflexivity|]. split; [vm_compute; reflexivity|]. side.
  - exists 0, 6, 1, [(24, -16, 1)%Z]. split; [mem|]. do 4 (split; [vm_compute; reflexivity|]). split; [cbn [snd]; keeps|].
    split; [reflexivity|]. split; [reflexivity|]. vm_compute. discriminate.
Qed.

Lemma beside_fails : fst (refine ZGeo beside wheel) = Raise EValueError.
Proof. vm_compute. reflexivity. Qed.

(** Points on two sides of a face. *)
Definition two_sides : @tri ZOps * list (Z * Z * Z) := (triangle_of wheel 0, [(8, 0, 4); (4, 8, 4)]%Z).

Lemma two_sides_left : asks ZGeo wheel two_sides RNone /\ zclass (fst two_sides) (8, 0, 4)%Z = 2 /\ zclass (fst two_sides) (4, 8, 4)%Z = 2 /\
  fst (refine ZGeo [two_sides] wheel) = Ok tt /\ map (n_p (snd (refine ZGeo [two_sides] wheel))) (g_nodes (snd (refine ZGeo [two_sides] wheel))) = map (n_p wheel) (g_nodes wheel).
Proof.
  split.
  - exists 0, 1, 2, [(8, 0, 4); (4, 8, 4)]%Z. split; [mem|]. do 4 (split; [vm_compute; reflexivity|]). split; [cbn [snd two_sides]; keeps|].
    right; right. exists (8, 0, 4)%Z, (4, 8, 4)%Z. split; [reflexivity|]. right; right. exists 0, 1, 2, 0. split; [side|]. split; [side|]. discriminate.
  - split; [vm_compute; reflexivity|]. split; [vm_compute; reflexivity|]. split; vm_compute; reflexivity.
Qed.

(** One point in the triangles 1 and 2, another one in the triangles 1 and 3: the first list
    object is extended. *)
Definition found : list entry := [(1, 0); (2, 0); (1, 1); (3, 1)].
Definition found_lists : @lists ZOps := fun k => if k =? 0 then [(8, 0, 4)%Z] else [(0, 32, 1)%Z].

Lemma found_prepared : prepare ZGeo found found_lists =
  Ok [(1, [(0, 32, 1); (8, 0, 4)]%Z); (2, [(0, 32, 1); (8, 0, 4)]%Z); (3, [(0, 32, 1)]%Z)].
Proof. vm_compute. reflexivity. Qed.

Lemma found_leaks : ~ reported found found_lists 2 (0, 32, 1)%Z.
Proof.
  intros (k & K & J). destruct K as [K|[K|[K|[K|[]]]]]; injection K; intros; subst; try discriminate.
  revert J. vm_compute. intros [J|[]]. discriminate J.
Qed.

(** Two close points with another one between them in the order. *)
Definition close_points : list (Z * Z * Z) := [(10000000000, 0, 0); (10000000000, 50000000000, 0); (10000000005, 0, 0)]%Z.

Lemma close_kept : prepare ZGeo [(1, 0)] (fun _ => close_points) = Ok [(1, close_points)].
Proof. vm_compute. reflexivity. Qed.

Lemma close_close : zclose (10000000000, 0, 0)%Z (10000000005, 0, 0)%Z = true.
Proof. vm_compute. reflexivity. Qed.

Lemma refine_found_ok : forall {F : FloatOps} (G : geometry) ts l s m h rs, prepare G l s = Ok m ->
  sound h -> no_double_faces h -> tells G h -> Forall2 (asks G h) (map (fun x => (ts (fst x), snd x)) m) rs ->
  apart_requests h rs -> new_points h (flat_map asked rs) ->
  exists h', refine_found G ts l s h = (Ok tt, h') /\ sound h' /\ no_double_faces h' /\
    refined h h' (flat_map asked rs) (fun f => exists r, In r rs /\ divides h r f).
Proof.
  intros F G ts l s m h rs E A B C D P Q. destruct (refine_ok G h _ rs A B C D P Q) as (h' & R & X).
  exists h'. split; auto. unfold refine_found. rewrite E. exact R.
Qed.

Lemma refine_found_none : forall {F : FloatOps} (G : geometry) ts s h, refine_found G ts [] s h = (Raise EIndexError, h).
Proof. reflexivity. Qed.
