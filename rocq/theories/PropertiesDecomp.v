(** Property theorems about decompositions of a grid into zones (C08 - C18). *)

From Coq Require Import ZArith NArith Ascii String Bool Lia List Permutation.
From Verif Require Import Py Heap GridModel GridSpec DecompSpec SimpleDecomp DecompMain Samples.
Import ListNotations.
Open Scope list_scope.

(** C08.  When a decomposition returns, every zone lists exactly the nodes and the
    edges incident to its faces, once each and in grid order, and contains all
    nodes and edges of its faces. *)
Theorem C08_decompositions_list_zone_contents : forall {F : FloatOps} nm d h h',
  grid_ok h -> decomposition nm d -> d h = (Ok tt, h') ->
  forall z, In z (g_zones h') ->
    sublist_of (fun n => some_face_in h' (n_faces h' n) z) (g_nodes h') (z_nodes h' z) /\
    sublist_of (fun e => some_face_in h' (e_faces h' e) z) (g_edges h') (z_edges h' z) /\
    NoDup (z_nodes h' z) /\ NoDup (z_edges h' z) /\
    (forall f, In f (z_faces h' z) ->
       incl (f_nodes h' f) (z_nodes h' z) /\ incl (f_edges h' f) (z_edges h' z)).
Proof. exact @lists_after. Qed.
Print Assumptions C08_decompositions_list_zone_contents.

(** C08.  The same for any assignment of faces to zones: linking (post_decompose)
    rebuilds the node and edge lists of all zones, numbers the zones and changes
    nothing else. *)
Theorem C08_linking_lists_zone_contents : forall {F : FloatOps} h, topo_ok h -> zones_ok h ->
  exists h', post_decompose h = (Ok tt, h') /\ mesh h' = mesh h /\ f_zone h' = f_zone h /\
    z_faces h' = z_faces h /\ g_zones h' = g_zones h /\ z_name h' = z_name h /\
    (forall i z, nth_error (g_zones h') i = Some z -> z_id h' z = Z.of_nat i) /\
    forall z, In z (g_zones h) ->
      sublist_of (fun n => some_face_in h (n_faces h n) z) (g_nodes h) (z_nodes h' z) /\
      sublist_of (fun e => some_face_in h (e_faces h e) z) (g_edges h) (z_edges h' z).
Proof. exact @link_any. Qed.
Print Assumptions C08_linking_lists_zone_contents.

Example C08_example :
  let (r, h') := post_decompose strip6 in
  r = Ok tt /\ map (z_nodes h') (g_zones h') = [[0; 1; 2; 3]; [2; 3; 4; 5; 6]; [5; 6; 7]]%nat /\
  map (z_edges h') (g_zones h') = [[0; 1; 2; 3; 4]; [3; 5; 6; 7; 8; 9; 10]; [9; 11; 12]]%nat.
Proof. vm_compute. auto. Qed.

(** C09.  When a decomposition returns, every face belongs to exactly one zone,
    exactly once, its zone attribute is that zone, no zone has another face, and
    the mesh is unchanged. *)
Theorem C09_decompositions_partition : forall {F : FloatOps} nm d h h',
  grid_ok h -> decomposition nm d -> d h = (Ok tt, h') ->
  mesh h' = mesh h /\
  (forall f, In f (g_faces h) -> exists z,
     In z (g_zones h') /\ f_zone h' f = Some z /\
     count_occ Nat.eq_dec (z_faces h' z) f = 1 /\
     (forall z', In z' (g_zones h') -> z' <> z -> ~ In f (z_faces h' z'))) /\
  (forall z f, In z (g_zones h') -> In f (z_faces h' z) -> In f (g_faces h)) /\
  Permutation (concat (map (z_faces h') (g_zones h'))) (g_faces h) /\
  NoDup (g_zones h').
Proof. exact @partition_ok. Qed.
Print Assumptions C09_decompositions_partition.

(** C09.  The random decomposition returns for every count of at least one zone,
    for every outcome of the random choices; the face number k goes to the zone
    chosen for it. *)
Theorem C09_random_returns : forall {F : FloatOps} rand count nm h, grid_ok h -> count <> 0 ->
  exists h', decompose_random rand count nm h = (Ok tt, h') /\ decomposed h h' nm /\
    length (g_zones h') = count /\
    (forall i z, nth_error (g_zones h') i = Some z -> z_name h' z = lit "random " ++ nat_str i) /\
    (forall k f, nth_error (g_faces h) k = Some f ->
       f_zone h' f = nth_error (g_zones h') (rand k mod count)).
Proof. exact @random_ok. Qed.
Print Assumptions C09_random_returns.

Example C09_example : grid_ok strip6 /\
  let (r, h') := decompose_random (fun k => k * k) 3 None strip6 in
  r = Ok tt /\ map (z_faces h') (g_zones h') = [[0; 3]; [1; 2; 4; 5]; []]%nat.
Proof. split; [exact strip6_ok|]. vm_compute. auto. Qed.

(** C10.  The mono decomposition succeeds and leaves one zone holding everything. *)
Theorem C10_mono : forall {F : FloatOps} nm h, grid_ok h ->
  exists h' z, decompose_mono nm h = (Ok tt, h') /\ decomposed h h' nm /\
    g_zones h' = [z] /\ z_name h' z = lit "mono" /\ z_faces h' z = g_faces h /\
    z_edges h' z = g_edges h /\
    sublist_of (fun n => n_faces h n <> []) (g_nodes h) (z_nodes h' z).
Proof. exact @mono_ok. Qed.
Print Assumptions C10_mono.

Example C10_example : grid_ok strip6 /\
  let (r, h') := decompose_mono None strip6 in
  r = Ok tt /\ map (z_faces h') (g_zones h') = [[0; 1; 2; 3; 4; 5]]%nat.
Proof. split; [exact strip6_ok|]. vm_compute. auto. Qed.

(** C11.  The linear decomposition cuts the list of faces into count runs of
    non-increasing sizes that differ by at most one. *)
Theorem C11_linear : forall {F : FloatOps} count nm h, grid_ok h -> count <> 0 ->
  exists h', decompose_linear count nm h = (Ok tt, h') /\ decomposed h h' nm /\
    length (g_zones h') = count /\
    concat (map (z_faces h') (g_zones h')) = g_faces h /\
    (forall i z, nth_error (g_zones h') i = Some z -> z_name h' z = lit "linear " ++ nat_str i) /\
    (forall i j z y, i <= j -> nth_error (g_zones h') i = Some z -> nth_error (g_zones h') j = Some y ->
       length (z_faces h' y) <= length (z_faces h' z) <= S (length (z_faces h' y))).
Proof. exact @linear_main. Qed.
Print Assumptions C11_linear.

Example C11_example : grid_ok strip6 /\
  let (r, h') := decompose_linear 4 None strip6 in
  r = Ok tt /\ map (z_faces h') (g_zones h') = [[0; 1]; [2; 3]; [4]; [5]]%nat.
Proof. split; [exact strip6_ok|]. vm_compute. auto. Qed.

(** C12.  The Farhat decomposition keeps the zones with the given names and adds
    count balanced zones that take all the other faces. *)
Theorem C12_farhat : forall {F : FloatOps} count nm names h,
  grid_ok h -> count <> 0 -> g_faces h <> [] ->
  exists h' K T, decompose_farhat count nm names h = (Ok tt, h') /\ decomposed h h' nm /\
    zones_named h names K /\ g_zones h' = K ++ T /\ length T = count /\
    (forall z, In z K -> z_faces h' z = z_faces h z /\ z_name h' z = z_name h z) /\
    (forall i z, nth_error T i = Some z -> z_name h' z = lit "farhat " ++ nat_str i) /\
    (forall i j z y, i <= j -> nth_error T i = Some z -> nth_error T j = Some y ->
       length (z_faces h' y) <= length (z_faces h' z) <= S (length (z_faces h' y))) /\
    list_sum (map (fun z => length (z_faces h' z)) T) +
      list_sum (map (fun z => length (z_faces h z)) K) = length (g_faces h).
Proof. exact @farhat_main. Qed.
Print Assumptions C12_farhat.

Example C12_example : grid_ok strip6 /\
  let (r, h') := decompose_farhat 2 None [lit "b"] strip6 in
  r = Ok tt /\ map (z_name h') (g_zones h') = [lit "b"; lit "farhat 0"; lit "farhat 1"] /\
  map (z_faces h') (g_zones h') = [[2; 3; 4]; [0; 1]; [5]]%nat.
Proof. split; [exact strip6_ok|]. vm_compute. auto. Qed.

(** C13.  The search path visits every admissible face exactly once and no other
    face; it only changes search marks. *)
Theorem C13_bfs_path : forall {F : FloatOps} h pred start,
  topo_ok h -> ignores_marks pred -> In start (g_faces h) ->
  exists p m, bfs_path start pred h = (Ok p, set_f_mark h m) /\
    NoDup p /\ (forall g, In g p <-> In g (g_faces h) /\ pred h g = true).
Proof. exact @bfs_path_main. Qed.
Print Assumptions C13_bfs_path.

Example C13_example : ignores_marks (F := ZOps) (fun _ f => negb (f =? 2)%nat) /\
  fst (bfs_path 3 (fun _ f => negb (f =? 2)%nat) strip6) = Ok [3; 4; 5; 0; 1]%nat.
Proof. split; [intros h v f; reflexivity|]. vm_compute. auto. Qed.

(** C14.  The connectivity component search returns the faces reachable from the
    start through admissible faces; every prefix of the path is connected and
    exactly the visited faces become marked. *)
Theorem C14_bfs_component : forall {F : FloatOps} h pred start,
  topo_ok h -> ignores_marks pred -> In start (g_faces h) -> pred h start = true ->
  (forall f, In f (g_faces h) -> f_mark h f = Some false) ->
  exists p m, bfs_component start pred h = (Ok p, set_f_mark h m) /\
    NoDup p /\ hd_error p = Some start /\
    (forall g, In g p <-> reach h (fun f => In f (g_faces h) /\ pred h f = true) start g) /\
    (forall k, connected h (firstn k p)) /\
    (forall f, m f = if in_dec Nat.eq_dec f p then Some true else f_mark h f).
Proof. exact @bfs_component_main. Qed.
Print Assumptions C14_bfs_component.

Example C14_example :
  fst (bfs_component 4 (fun _ f => negb (f =? 2)%nat) (set_f_mark strip6 (fun _ => Some false)))
    = Ok [4; 3; 5]%nat.
Proof. vm_compute. auto. Qed.

(** C15.  A new zone of the Farhat decomposition is connected whenever the faces not
    taken by the earlier zones (the faces of this and all later zones) are. *)
Theorem C15_farhat_connected : forall {F : FloatOps} count nm names h,
  grid_ok h -> count <> 0 -> g_faces h <> [] ->
  exists h' K T, decompose_farhat count nm names h = (Ok tt, h') /\
    zones_named h names K /\ g_zones h' = K ++ T /\
    (forall i z, nth_error T i = Some z ->
       connected h (concat (map (z_faces h') (skipn i T))) -> connected h (z_faces h' z)).
Proof. exact @farhat_connected. Qed.
Print Assumptions C15_farhat_connected.

Example C15_example : grid_ok strip6 /\
  let (r, h') := decompose_farhat 3 None [] strip6 in
  r = Ok tt /\ map (z_faces h') (g_zones h') = [[0; 1]; [2; 3]; [4; 5]]%nat.
Proof. split; [exact strip6_ok|]. vm_compute. auto. Qed.

(** C16.  When the hierarchical decomposition returns, the fixed zones come first with
    their faces, and at most 2^(levels-1) further zones follow, named by 'h' and a word
    over {l, r}; none of them is empty if there is a face outside the fixed zones. *)
Theorem C16_hierarchical_keeps_fixed : forall {F : FloatOps} fns levels nm names h h',
  order_ok -> Forall mesh_sign fns -> grid_ok h ->
  decompose_hierarchical fns levels nm names h = (Ok tt, h') ->
  exists K N, zones_named h names K /\ g_zones h' = K ++ N /\
    length N <= 2 ^ (levels - 1) /\ 1 <= levels /\
    (forall z, In z K -> z_faces h' z = z_faces h z /\ z_name h' z = z_name h z) /\
    (forall z, In z N -> exists w, z_name h' z = lit "h" ++ w /\
       Forall (fun c => c = "l"%char \/ c = "r"%char) w) /\
    ((exists f, outside h K f) -> forall z, In z N -> z_faces h' z <> []).
Proof. exact @hier_keeps. Qed.
Print Assumptions C16_hierarchical_keeps_fixed.

(** The default sign functions (coordinates of the face centre) are sign functions in
    the sense of these theorems. *)
Theorem C16_default_signs : forall {F : FloatOps}, Forall mesh_sign axis_signs.
Proof. exact @axis_signs_mesh. Qed.
Print Assumptions C16_default_signs.

(** C16.  It returns if the last sign function tells all faces outside the fixed zones
    apart.  (Missing from the full claim: it does not always return, see below.) *)
Theorem C16_hierarchical_returns_partial : forall {F : FloatOps} f0 fl levels nm names K h,
  order_ok -> Forall mesh_sign (f0 ++ [fl]) -> grid_ok h -> 1 <= levels ->
  zones_named h names K -> separates h K fl ->
  exists h', decompose_hierarchical (f0 ++ [fl]) levels nm names h = (Ok tt, h') /\ decomposed h h' nm.
Proof. exact @hier_total. Qed.
Print Assumptions C16_hierarchical_returns_partial.

(** C16.  If all sign functions tell all faces outside the fixed zones apart and there
    are enough faces, there are exactly 2^(levels-1) new zones, of balanced sizes. *)
Theorem C16_hierarchical_count_partial : forall {F : FloatOps} f0 fl levels nm names K h,
  order_ok -> Forall mesh_sign (f0 ++ [fl]) -> grid_ok h -> 1 <= levels ->
  zones_named h names K -> Forall (separates h K) (f0 ++ [fl]) ->
  let u := length (g_faces h) - list_sum (map (fun z => length (z_faces h z)) K) in
  2 ^ (levels - 1) <= u ->
  exists h' N, decompose_hierarchical (f0 ++ [fl]) levels nm names h = (Ok tt, h') /\
    g_zones h' = K ++ N /\ length N = 2 ^ (levels - 1) /\
    (forall z, In z N -> length (z_faces h' z) = u / 2 ^ (levels - 1) \/
                         length (z_faces h' z) = S (u / 2 ^ (levels - 1))).
Proof. exact @hier_exact. Qed.
Print Assumptions C16_hierarchical_count_partial.

Example C16_example : separates strip6 [] (zaxis 2) /\
  let (r, h') := decompose_hierarchical axis_signs 3 None [lit "c"] strip6 in
  r = Ok tt /\ map (z_name h') (g_zones h') = [lit "c"; lit "hll"; lit "hlr"; lit "hrl"; lit "hrr"] /\
  map (z_faces h') (g_zones h') = [[5]; [0]; [1]; [2]; [3; 4]]%nat.
Proof. split; [sep|]. vm_compute. auto. Qed.

(** C16.  The full claim is false: on a plane grid z = 0 with faces that are told apart
    by their x coordinate, the decomposition with the default sign functions raises. *)
Theorem C16_hierarchical_refuted : exists (h h' : @heap ZOps),
  grid_ok h /\ separates h [] (zaxis 0) /\
  decompose_hierarchical axis_signs 2 None [] h = (Raise EValueError, h').
Proof.
  exists flat6, (snd (decompose_hierarchical axis_signs 2 None [] flat6)).
  split; [exact flat6_ok|]. split; [sep|].
  apply fst_pair; vm_compute; reflexivity.
Qed.
Print Assumptions C16_hierarchical_refuted.

(** C16.  Exactly when a zone can be split: the split of a zone of at least two faces
    returns if and only if the last sign function has a sign below its upper median. *)
Theorem C16_split_returns_iff : forall {F : FloatOps}, order_ok ->
  forall f0 fl h zone pre post l r,
  Forall mesh_sign (f0 ++ [fl]) -> grid_ok h ->
  g_zones h = pre ++ zone :: post -> z_fixed h zone = false -> 2 <= length (z_faces h zone) ->
  halves h fl (z_faces h zone) l r ->
  (l <> [] <-> exists h', split_zone zone (f0 ++ [fl]) h = (Ok tt, h')).
Proof. exact @split_zone_succeeds. Qed.
Print Assumptions C16_split_returns_iff.

(** C17.  If some face of the zone has a sign below the upper median, the metric is
    twice the number of edges between the two halves, and no attribute of any object
    changes.  (Missing from the full claim: the other case, see below.) *)
Theorem C17_metric_partial : forall {F : FloatOps}, order_ok ->
  forall h zone zl zr fn l r, mesh_sign fn -> grid_ok h ->
  In zone (g_zones h) -> z_faces h zone <> [] -> zl <> zr ->
  (forall f, In f (g_faces h) -> f_zone h f <> Some zl /\ f_zone h f <> Some zr) ->
  halves h fn (z_faces h zone) l r -> l <> [] ->
  exists v, split_zone_metric zone zl zr fn h = (Ok (Some (2 * cut_count h l r)), set_f_zone h v) /\
    (forall f, v f = f_zone h f).
Proof. exact @metric_main. Qed.
Print Assumptions C17_metric_partial.

(** C17.  Otherwise the metric is infinite and all faces of the zone are left assigned
    to the right child. *)
Theorem C17_metric_degenerate : forall {F : FloatOps}, order_ok ->
  forall h zone zl zr fn r, mesh_sign fn -> grid_ok h ->
  In zone (g_zones h) -> z_faces h zone <> [] -> zl <> zr ->
  (forall f, In f (g_faces h) -> f_zone h f <> Some zl /\ f_zone h f <> Some zr) ->
  halves h fn (z_faces h zone) [] r ->
  exists v, split_zone_metric zone zl zr fn h = (Ok None, set_f_zone h v) /\
    (forall f, In f (z_faces h zone) -> v f = Some zr) /\
    (forall f, ~ In f (z_faces h zone) -> v f = f_zone h f).
Proof. exact @metric_degenerate. Qed.
Print Assumptions C17_metric_degenerate.

Example C17_example :
  let fn := zaxis 0 in
  halves strip6 fn (z_faces strip6 1) [2]%nat [3; 4]%nat /\
  let (r, h') := split_zone_metric 1 7 8 fn strip6 in
  r = Ok (Some 2%nat) /\ map (f_zone h') (g_faces h') = map (f_zone strip6) (g_faces strip6).
Proof.
  split; [|vm_compute; auto].
  replace (z_faces strip6 1) with [2; 3; 4]%nat by (vm_compute; reflexivity).
  exists 50%Z. split; [|split].
  - split; [vm_compute; auto|]. split; apply Nat.leb_le; vm_compute; reflexivity.
  - constructor; [vm_compute; auto|]. apply sub_drop; [vm_compute; discriminate|].
    apply sub_drop; [vm_compute; discriminate|]. constructor.
  - apply sub_drop; [vm_compute; discriminate|]. constructor; [vm_compute; auto|].
    constructor; [vm_compute; auto|]. constructor.
Qed.

(** C17.  The full claim is false: the zone assignment is not restored on a plane grid. *)
Theorem C17_metric_refuted : exists (h h' : @heap ZOps) fn zone zl zr,
  grid_ok h /\ In fn axis_signs /\ In zone (g_zones h) /\ z_faces h zone <> [] /\ zl <> zr /\
  ~ In zl (g_zones h) /\ ~ In zr (g_zones h) /\
  split_zone_metric zone zl zr fn h = (Ok None, h') /\
  exists f, In f (g_faces h) /\ f_zone h' f <> f_zone h f.
Proof.
  exists flat6, (snd (split_zone_metric 0 7 8 (zaxis 2) flat6)),
    (zaxis 2), 0, 7, 8.
  split; [exact flat6_ok|]. split; [simpl; auto|]. split; [vm_compute; auto|].
  split; [vm_compute; discriminate|]. split; [discriminate|].
  split; [vm_compute; intuition discriminate|]. split; [vm_compute; intuition discriminate|].
  split; [apply fst_pair; vm_compute; reflexivity|].
  exists 0. split; [vm_compute; auto|]. vm_compute. discriminate.
Qed.
Print Assumptions C17_metric_refuted.

(** C18.  A split that returns uses one of the sign functions with the fewest cut edges;
    the left child has the faces of smaller sign, in order, the right child has at
    least as many faces; both are non-empty; with different signs the sizes differ by
    at most one; no other zone changes. *)
Theorem C18_split : forall {F : FloatOps}, order_ok ->
  forall fns h zone pre post h', Forall mesh_sign fns -> grid_ok h ->
  g_zones h = pre ++ zone :: post -> z_fixed h zone = false -> 2 <= length (z_faces h zone) ->
  split_zone zone fns h = (Ok tt, h') ->
  let fs := z_faces h zone in
  exists fn l r zl zr, In fn fns /\ halves h fn fs l r /\ l <> [] /\
    (forall fn' l' r', In fn' fns -> halves h fn' fs l' r' -> l' <> [] ->
       cut_count h l r <= cut_count h l' r') /\
    mesh h' = mesh h /\ ~ In zl (g_zones h) /\ ~ In zr (g_zones h) /\ zl <> zr /\
    g_zones h' = pre ++ post ++ [zl; zr] /\ z_faces h' zl = l /\ z_faces h' zr = r /\
    z_name h' zl = z_name h zone ++ lit "l" /\ z_name h' zr = z_name h zone ++ lit "r" /\
    (forall z, In z (g_zones h) -> z <> zone ->
       z_faces h' z = z_faces h z /\ z_name h' z = z_name h z /\ z_fixed h' z = z_fixed h z) /\
    zones_ok h'.
Proof. exact @split_zone_returns. Qed.
Print Assumptions C18_split.

(** C18.  What it means to be the two halves. *)
Theorem C18_halves : forall {F : FloatOps}, order_ok ->
  forall h fn fs l r, NoDup fs -> fs <> [] -> halves h fn fs l r ->
  (forall f g, In f l -> In g r -> vltb (fn h f) (fn h g) = true) /\
  (forall f, In f fs <-> In f l \/ In f r) /\
  r <> [] /\ length l <= length r /\ length l + length r = length fs /\
  (signs_differ (fn h) fs -> length l = length fs / 2).
Proof. exact @halves_facts. Qed.
Print Assumptions C18_halves.

Example C18_example : grid_ok strip6 /\
  let (r, h') := split_zone 1 axis_signs strip6 in
  r = Ok tt /\ map (z_name h') (g_zones h') = [lit "a"; lit "c"; lit "bl"; lit "br"] /\
  map (z_faces h') (g_zones h') = [[0; 1]; [5]; [2]; [3; 4]]%nat.
Proof. split; [exact strip6_ok|]. vm_compute. auto. Qed.
