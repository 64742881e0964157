(** Proofs about the flight of the droplet of one face over the whole surface. *)

From Coq Require Import ZArith Reals Bool Lra Lia List.
From Verif Require Import Py PyLemmas Geom GeomSpec GeomProofs CloudProofs GeomMore DirProofs Drops DropsSpec DropsProofs DropsMore.
Import ListNotations.
Open Scope list_scope.
Open Scope R_scope.

Lemma triangles_from_in : forall l k t, In t (triangles_from k l) ->
  exists i f, nth_error l i = Some f /\ t = Tri (df_a f) (df_b f) (df_c f) (k + i).
Proof.
  induction l as [|f l IH]; intros k t H; [destruct H|]. cbn [triangles_from] in H. destruct H as [<-|H].
  - exists 0%nat, f. split; [reflexivity|]. rewrite Nat.add_0_r. reflexivity.
  - destruct (IH _ _ H) as (i & g & N & E). exists (S i), g. split; [exact N|]. rewrite E. f_equal. lia.
Qed.

Lemma triangles_from_has : forall l k f, In f l -> exists i, In (Tri (df_a f) (df_b f) (df_c f) i) (triangles_from k l).
Proof.
  induction l as [|g l IH]; intros k f H; [destruct H|]. cbn [triangles_from]. destruct H as [->|H].
  - exists k. left. reflexivity.
  - destruct (IH (S k) f H) as [i I]. exists i. right. exact I.
Qed.

Lemma across_crosswise : forall fs x y, across fs x y -> crosswise (get_triangles_list fs) x y.
Proof.
  intros fs x y H t Ht. destruct (triangles_from_in _ _ _ Ht) as (i & f & N & ->). apply nth_error_In in N. exact (H f N).
Qed.

Lemma start_above : forall f i n d, normal_orth (get_triangle f i) = Ok n ->
  above f d (vadd (centroid (get_triangle f i)) (vmul n d)).
Proof.
  intros [a b c da] i n d H. unfold normal_orth, get_triangle in H. cbn [ta tb tc df_a df_b df_c] in H.
  apply orth_ok in H as (Z & E & U). set (w := cross (vsub b a) (vsub c b)) in *.
  pose proof (vmod_nonneg w) as P. assert (K : 0 < 1 / vmod w) by (apply Rdiv_lt_0_compat; lra).
  assert (W : w = cross (vsub b a) (vsub c a)).
  { unfold w, cross, vsub. destruct a, b, c; cbn. f_equal; ring. }
  assert (M : 0 < mod2 w).
  { destruct (Rle_lt_or_eq_dec 0 (mod2 w) (mod2_nonneg w)) as [M|M]; [exact M|]. exfalso. apply Z. unfold vmod. rewrite <- M. apply sqrt_0. }
  exists n. cbn [df_a df_b df_c]. split; [exact U|].
  assert (D : forall u, dot n u = (1 / vmod w) * dot w u) by (intros u; rewrite E; unfold dot, vmul; destruct w; cbn; ring).
  split; [|split; [|split]].
  - rewrite D, W. replace (dot _ _) with 0; [ring|]. unfold dot, cross, vsub; destruct a, b, c; cbn; ring.
  - rewrite D, W. replace (dot _ _) with 0; [ring|]. unfold dot, cross, vsub; destruct a, b, c; cbn; ring.
  - rewrite D, <- W. apply Rmult_lt_0_compat; [exact K|]. exact M.
  - unfold centroid, get_triangle, vadd, vmul. destruct a, b, c, n; cbn. repeat split; lra.
Qed.

Theorem flight_ok : forall fs ds c air d dt n f i vd h tr,
  triangles_cloud (get_triangles_list fs) = Ok c -> make_space ds = Ok air -> ds <> [] -> In f fs -> 0 < getitem f kStallD ->
  flight air c d dt n f i = Ok (vd, h, tr) ->
  exists b p vs, box_of (map fst ds) = Ok b /\ hd_error tr = Some p /\ above f d p /\
    hd_error vs = Some (V3 (getitem f kStallVX) (getitem f kStallVY) (getitem f kStallVZ)) /\
    trajectory ds (getitem f kStallD) dt tr vs /\
    (forall x, In x (removelast tr) -> in_box b x) /\
    (forall k x y g, leg tr k x y -> (S (S k) < List.length tr)%nat \/ vd <> VC -> across fs x y -> In g fs -> ~ meets g x y) /\
    match vd with
    | VC => exists j g q x y, h = Some j /\ nth_error fs j = Some g /\ tr = q ++ [x; y] /\ (across fs x y -> meets g x y)
    | VN => h = None /\ (n < Z.of_nat (List.length tr))%Z
    | VO => h = None /\ exists q x, tr = q ++ [x] /\ ~ in_box b x
    | VS => h = None /\ exists q x us v, tr = q ++ [x] /\ vs = us ++ [v] /\ in_box b x /\ vmod (vmul v dt) < / 1000000000000000
    end.
Proof.
  intros fs ds c air d dt n f i vd h tr Ec Es Hds Hf HD H. unfold flight in H.
  destruct (normal_orth (get_triangle f i)) as [o|] eqn:En; [|discriminate]. cbn [rbind] in H.
  assert (Hl : get_triangles_list fs <> []) by (destruct fs; [destruct Hf|discriminate]).
  destruct (fly_ok ds (get_triangles_list fs) (vadd (centroid (get_triangle f i)) (vmul o d))
             (V3 (getitem f kStallVX) (getitem f kStallVY) (getitem f kStallVZ)) (getitem f kStallD) dt n Hds Hl HD)
    as (b & s & c' & Eb & Es' & Ec' & R).
  rewrite Es in Es'. injection Es' as <-. rewrite Ec in Ec'. injection Ec' as <-.
  destruct R as [(vd' & h' & pts & vs & E & P1 & P2 & P3 & P4 & _ & P5 & P6)|[E _]]; rewrite H in E; [|discriminate].
  injection E as <- <- <-. exists b. eexists. exists vs. split; [exact Eb|]. split; [exact P1|].
  split; [apply start_above; exact En|]. split; [exact P2|]. split; [exact P3|]. split; [exact P4|]. split.
  - intros k x y g L1 L2 A Hg (z & Z1 & Z2). destruct (triangles_from_has fs 0 g Hg) as [j I].
    apply (P5 k x y _ z L1 L2 (across_crosswise _ _ _ A) I). split; assumption.
  - destruct vd; auto. destruct P6 as (q & x & y & t & E1 & It & -> & K).
    destruct (triangles_from_in _ _ _ It) as (j & g & N & ->). exists j, g, q, x, y. split; [reflexivity|]. split; [exact N|].
    split; [exact E1|]. intros A. destruct (K (across_crosswise _ _ _ A)) as (z & Z1 & Z2). exists z. split; assumption.
Qed.
