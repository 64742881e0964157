(** C109, C110: refine.py. *)

From Coq Require Import ZArith NArith Bool Lia List Permutation Sorted.
From Verif Require Import Py Heap GridModel GridSpec AtomicSpec AtomicActs AtomicFinal PatchDone Refine RefineSpec RefineProofs RefinePrep
  Samples SamplesAtomic RefineCases.
Import ListNotations.
Open Scope list_scope.
Open Scope nat_scope.

(** C109.  Every triangle of a face of a grid with a list of points asks for exactly one
    thing ... *)
Theorem C109_one_request : forall {F : FloatOps} (G : geometry) h f pts, topo_ok h -> In f (g_faces h) ->
  exists t r, get_triangle h f = Ok t /\ asks G h (t, pts) r /\ forall r', asks G h (t, pts) r' -> r' = r.
Proof.
  intros F G h f pts T I. destruct (asks_total G h f pts T I) as (t & r & E & A). exists t, r.
  split; [exact E|]. split; [exact A|]. intros r' B. exact (asks_one G h (t, pts) r' r B A).
Qed.
Print Assumptions C109_one_request.

(** ... and if no request is made for a face that a request before it divides, and the points are
    new and different, then refine does what was asked for: the points become nodes in the
    order of the list, exactly the faces at them are replaced, everything else stays and the
    grid is sound. *)
Theorem C109_refine_partial : forall {F : FloatOps} (G : geometry) h l rs, sound h -> no_double_faces h -> tells G h ->
  Forall2 (asks G h) l rs -> apart_requests h rs -> new_points h (flat_map asked rs) ->
  exists h', refine G l h = (Ok tt, h') /\ sound h' /\ no_double_faces h' /\
    refined h h' (flat_map asked rs) (fun f => exists r, In r rs /\ divides h r f).
Proof. exact @refine_ok. Qed.
Print Assumptions C109_refine_partial.

(** Four triangles: one point on a side, two points on a side, a point inside, points on two
    sides; with points outside and at a corner. *)
Example C109_refine_example : sound wheel /\ no_double_faces wheel /\ tells ZGeo wheel /\ Forall2 (asks ZGeo wheel) tasks wishes /\
  apart_requests wheel wishes /\ new_points wheel (flat_map asked wishes) /\
  flat_map asked wishes = [(8, 0, 4); (-8, 0, 4); (-24, 0, 2); (0, 32, 1)]%Z /\
  (let h' := snd (refine ZGeo tasks wheel) in
   g_faces wheel = [0; 1; 2; 3; 4; 5] /\ g_faces h' = [4; 6; 8; 7; 9; 10; 11; 12; 13; 14; 15; 16; 17; 18] /\
   map (f_nodes h') [16; 17; 18] = [[0; 2; 10]; [2; 3; 10]; [0; 3; 10]]).
Proof.
  split; [exact (consistent_sound _ wheel_ok)|]. split; [exact wheel_single|].
  split; [exact (tells_ok wheel (proj2 (proj2 (proj2 (proj2 wheel_ok)))))|].
  split; [exact tasks_ask|]. split; [exact wishes_apart|]. split; [exact wishes_new|]. split; [reflexivity|].
  vm_compute. repeat split; reflexivity.
Qed.

(** Not proved and false: the condition on faces.  A point on the side between two faces that is
    reported for both of them (as the search of intersections does) stops the program with an
    error ... *)
Theorem C109_shared_side_refuted : exists (G : @geometry ZOps) h l p f g, sound h /\ no_double_faces h /\ tells G h /\
  In f (g_faces h) /\ In g (g_faces h) /\ f <> g /\ new_point h p /\
  Forall2 (asks G h) l [RSide f 0 1 p; RSide g 1 0 p] /\ fst (refine G l h) = Raise EIndexError.
Proof.
  exists ZGeo, wheel, twice, (8, 0, 4)%Z, 0, 5.
  split; [exact (consistent_sound _ wheel_ok)|]. split; [exact wheel_single|].
  split; [exact (tells_ok wheel (proj2 (proj2 (proj2 (proj2 wheel_ok)))))|].
  split; [mem|]. split; [mem|]. split; [discriminate|]. split; [apply new_pointb_ok; vm_compute; reflexivity|].
  split; [exact twice_asks|exact twice_fails].
Qed.
Print Assumptions C109_shared_side_refuted.

(** ... so does a point inside a face whose neighbour has a point on their side ... *)
Theorem C109_neighbour_refuted : exists (G : @geometry ZOps) h l p q f g, sound h /\ no_double_faces h /\ tells G h /\
  In f (g_faces h) /\ In g (g_faces h) /\ f <> g /\ new_points h [p; q] /\
  Forall2 (asks G h) l [RSide f 0 1 p; RInner g q] /\ fst (refine G l h) = Raise EValueError.
Proof.
  exists ZGeo, wheel, beside, (8, 0, 4)%Z, (24, -16, 1)%Z, 0, 5.
  split; [exact (consistent_sound _ wheel_ok)|]. split; [exact wheel_single|].
  split; [exact (tells_ok wheel (proj2 (proj2 (proj2 (proj2 wheel_ok)))))|].
  split; [mem|]. split; [mem|]. split; [discriminate|].
  split; [|split; [exact beside_asks|exact beside_fails]].
  split; [vm_compute; repeat constructor; cbn; intros K; repeat (destruct K as [K|K]; [discriminate K|]); contradiction|].
  intros p [<-|[<-|[]]]; apply new_pointb_ok; vm_compute; reflexivity.
Qed.
Print Assumptions C109_neighbour_refuted.

(** ... and points on two sides of a triangle do not become nodes. *)
Theorem C109_two_sides_refuted : exists (G : @geometry ZOps) h x p q, sound h /\ asks G h x RNone /\ snd x = [p; q] /\
  new_points h [p; q] /\ cls G (fst x) p = 2 /\ cls G (fst x) q = 2 /\
  let h' := snd (refine G [x] h) in
  fst (refine G [x] h) = Ok tt /\ ~ In p (map (n_p h') (g_nodes h')) /\ ~ In q (map (n_p h') (g_nodes h')).
Proof.
  exists ZGeo, wheel, two_sides, (8, 0, 4)%Z, (4, 8, 4)%Z. destruct two_sides_left as (A & C & D & E & N).
  split; [exact (consistent_sound _ wheel_ok)|]. split; [exact A|]. split; [reflexivity|].
  split.
  - split; [vm_compute; repeat constructor; cbn; intros K; repeat (destruct K as [K|K]; [discriminate K|]); contradiction|].
    intros p [<-|[<-|[]]]; apply new_pointb_ok; vm_compute; reflexivity.
  - split; [exact C|]. split; [exact D|]. cbv zeta. split; [exact E|].
    split; intros K; refine (_ (eq_ind _ (fun l => In _ l) K _ N)); clear K; vm_compute; intros K; repeat (destruct K as [K|K]; [discriminate K|]); contradiction.
Qed.
Print Assumptions C109_two_sides_refuted.

(** C110.  Preparation of the found intersections (if there is one, and every list of points has
    a point): every triangle comes once, with points that were found; every point found for it
    is in its list up to steps between close points. *)
Theorem C110_prepare_partial : forall {F : FloatOps} (G : geometry) l s,
  (forall v, Permutation (srt G v) v) -> l <> [] -> (forall t k, In (t, k) l -> s k <> []) ->
  exists m, prepare G l s = Ok m /\ StronglySorted lt (map fst m) /\ (forall t, In t (map fst m) <-> In t (map fst l)) /\
    forall t v, In (t, v) m -> v <> [] /\ (forall p, In p v -> exists t', reported l s t' p) /\
      forall p, reported l s t p -> exists q, In q v /\ chained G (fun x => exists t', reported l s t' x) p q.
Proof. exact @prepare_ok. Qed.
Print Assumptions C110_prepare_partial.

Example C110_prepare_example : (forall v, Permutation (srt ZGeo v) v) /\ found <> [] /\ (forall t k, In (t, k) found -> found_lists k <> []) /\
  reported found found_lists 1 (8, 0, 4)%Z /\ reported found found_lists 1 (0, 32, 1)%Z.
Proof.
  split; [exact zsort_perm|]. split; [discriminate|]. split.
  - intros t k. unfold found_lists. destruct (k =? 0); discriminate.
  - split; [exists 0|exists 1]; split; vm_compute; auto.
Qed.

(** Both steps together. *)
Theorem C110_found_partial : forall {F : FloatOps} (G : geometry) ts l s m h rs, prepare G l s = Ok m ->
  sound h -> no_double_faces h -> tells G h -> Forall2 (asks G h) (map (fun x => (ts (fst x), snd x)) m) rs ->
  apart_requests h rs -> new_points h (flat_map asked rs) ->
  exists h', refine_found G ts l s h = (Ok tt, h') /\ sound h' /\ no_double_faces h' /\
    refined h h' (flat_map asked rs) (fun f => exists r, In r rs /\ divides h r f).
Proof. exact @refine_found_ok. Qed.
Print Assumptions C110_found_partial.

(** A point found inside the triangle of the face 1 and one on a side of the face 4 (found twice). *)
Example C110_found_example : let ts := fun t => triangle_of wheel t in
  let s := fun k => if k =? 0 then [(0, 32, 1)%Z] else [(-8, -16, 3)%Z] in
  prepare ZGeo [(4, 1); (1, 0); (4, 1)] s = Ok [(1, [(0, 32, 1)]%Z); (4, [(-8, -16, 3)]%Z)] /\
  Forall2 (asks ZGeo wheel) [(ts 1, [(0, 32, 1)]%Z); (ts 4, [(-8, -16, 3)]%Z)] [RInner 1 (0, 32, 1)%Z; RSide 4 0 5 (-8, -16, 3)%Z] /\
  apart_requests wheel [RInner 1 (0, 32, 1)%Z; RSide 4 0 5 (-8, -16, 3)%Z] /\ new_points wheel [(0, 32, 1)%Z; (-8, -16, 3)%Z].
Proof.
  cbv zeta. split; [vm_compute; reflexivity|]. split.
  - constructor; [|constructor; [|constructor]].
    + exists 0, 2, 3, [(0, 32, 1)%Z]. split; [mem|]. do 4 (split; [vm_compute; reflexivity|]). split; [cbn [snd]; keeps|].
      split; [reflexivity|]. split; [reflexivity|]. vm_compute. discriminate.
    + exists 0, 5, 6, [(-8, -16, 3)%Z]. split; [mem|]. do 4 (split; [vm_compute; reflexivity|]). split; [cbn [snd]; keeps|].
      split; [reflexivity|]. split; [reflexivity|]. split; [vm_compute; reflexivity|]. side.
  - split.
    + repeat constructor. cbn [at_face divides]. intros f -> K. discriminate K.
    + split; [vm_compute; repeat constructor; cbn; intros K; repeat (destruct K as [K|K]; [discriminate K|]); contradiction|].
      intros p [<-|[<-|[]]]; apply new_pointb_ok; vm_compute; reflexivity.
Qed.

(** Not proved and false: that a triangle gets only its own points (list objects are shared) ... *)
Theorem C110_leak_refuted : exists (G : @geometry ZOps) l s m t v p, (forall v, Permutation (srt G v) v) /\ prepare G l s = Ok m /\
  In (t, v) m /\ In p v /\ ~ reported l s t p.
Proof.
  exists ZGeo, found, found_lists, [(1, [(0, 32, 1); (8, 0, 4)]%Z); (2, [(0, 32, 1); (8, 0, 4)]%Z); (3, [(0, 32, 1)]%Z)],
    2, [(0, 32, 1); (8, 0, 4)]%Z, (0, 32, 1)%Z.
  split; [exact zsort_perm|]. split; [exact found_prepared|]. split; [cbn; auto|]. split; [cbn; auto|]. exact found_leaks.
Qed.
Print Assumptions C110_leak_refuted.

(** ... that no two points of a triangle are close ... *)
Theorem C110_close_refuted : exists (G : @geometry ZOps) l s t v p q, (forall v, Permutation (srt G v) v) /\ prepare G l s = Ok [(t, v)] /\
  In p v /\ In q v /\ p <> q /\ close G p q = true.
Proof.
  exists ZGeo, [(1, 0)], (fun _ => close_points), 1, close_points, (10000000000, 0, 0)%Z, (10000000005, 0, 0)%Z.
  split; [exact zsort_perm|]. split; [exact close_kept|]. split; [left; reflexivity|]. split; [right; right; left; reflexivity|].
  split; [discriminate|exact close_close].
Qed.
Print Assumptions C110_close_refuted.

(** ... and that a grid without intersections passes: the program stops with an error. *)
Theorem C110_none_refuted : forall {F : FloatOps} (G : geometry) ts s h, refine_found G ts [] s h = (Raise EIndexError, h).
Proof. exact @refine_found_none. Qed.
Print Assumptions C110_none_refuted.
