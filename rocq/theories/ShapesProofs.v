(** Proofs about the boxes of lists of triangles. *)

From Coq Require Import Reals Lra Bool List.
From Verif Require Import Py Geom GeomSpec CloudProofs GeomMore Shapes.
Import ListNotations.
Open Scope R_scope.

Lemma points_some : forall ts, ts <> [] -> flat_map points ts <> [].
Proof. intros [|t ts] H; [congruence|discriminate]. Qed.

Lemma triangles_box : forall ts, ts <> [] -> exists b, box_from_triangles ts = Ok b /\
  (forall t x, In t ts -> in_triangle (ta t) (tb t) (tc t) x -> in_box b x) /\
  (forall b', (forall t x, In t ts -> in_triangle (ta t) (tb t) (tc t) x -> in_box b' x) -> box_within b b').
Proof.
  intros ts H. destruct (box_of_ok _ (points_some ts H)) as (b & E & A & B). exists b. split; [exact E|]. split.
  - intros t x Ht Hx. apply (in_triangle_box b (ta t) (tb t) (tc t)); auto; apply A; apply in_flat_map; exists t; cbn; auto.
  - intros b' Hb. apply B. intros p Hp. apply in_flat_map in Hp. destruct Hp as (t & Ht & Hp). apply (Hb t p Ht).
    cbn in Hp. destruct Hp as [<-|[<-|[<-|[]]]]; [exists 1, 0, 0|exists 0, 1, 0|exists 0, 0, 1]; repeat split; lra.
Qed.

Lemma triangles_box_inv : forall ts b, box_from_triangles ts = Ok b -> ts <> [].
Proof. intros ts b E ->. discriminate E. Qed.

Lemma corner_in : forall ts b, box_from_triangles ts = Ok b -> in_box b (V3 (minx b) (miny b) (minz b)) /\ in_box b (V3 (maxx b) (maxy b) (maxz b)).
Proof.
  intros ts b E. pose proof (triangles_box_inv _ _ E) as N. destruct (triangles_box ts N) as (b1 & E1 & A & _). rewrite E in E1. injection E1 as <-.
  destruct ts as [|t ts]; [congruence|]. destruct (A t (ta t) (or_introl eq_refl)) as (X & Y & Z).
  { exists 1, 0, 0. repeat split; lra. }
  unfold in_box. cbn. repeat split; lra.
Qed.

Lemma same_triangles : forall ts ts', (forall t, In t ts <-> In t ts') -> box_from_triangles ts = box_from_triangles ts'.
Proof.
  intros ts ts' H. destruct ts as [|t0 ts0].
  - destruct ts' as [|t' l]; [reflexivity|]. destruct (proj2 (H t') (or_introl eq_refl)).
  - set (ts := t0 :: ts0) in *. assert (N : ts <> []) by discriminate. assert (N' : ts' <> []) by (intros ->; destruct (proj1 (H t0) (or_introl eq_refl))).
    destruct (triangles_box ts N) as (b & E & A & B). destruct (triangles_box ts' N') as (b' & E' & A' & B'). rewrite E, E'. f_equal.
    assert (W : box_within b b') by (apply B; intros t x Ht; apply A'; apply H; exact Ht). assert (W' : box_within b' b) by (apply B'; intros t x Ht; apply A; apply H; exact Ht).
    destruct (corner_in _ _ E) as [C1 C2]. destruct (corner_in _ _ E') as [C1' C2']. apply W in C1, C2. apply W' in C1', C2'.
    unfold in_box in *. destruct b, b'. cbn in *. f_equal; lra.
Qed.

Lemma boxes_apart : forall ts ts' b b', box_from_triangles ts = Ok b -> box_from_triangles ts' = Ok b' -> is_potential_intersect_with_box b b' = false ->
  forall t t' x, In t ts -> In t' ts' -> in_triangle (ta t) (tb t) (tc t) x -> in_triangle (ta t') (tb t') (tc t') x -> False.
Proof.
  intros ts ts' b b' E E' I t t' x Ht Ht' Hx Hx'.
  destruct (triangles_box ts (triangles_box_inv _ _ E)) as (b1 & E1 & A & _). rewrite E in E1. injection E1 as <-.
  destruct (triangles_box ts' (triangles_box_inv _ _ E')) as (b1 & E1 & A' & _). rewrite E' in E1. injection E1 as <-.
  pose proof (A t x Ht Hx) as P. pose proof (A' t' x Ht' Hx') as P'.
  assert (T : is_potential_intersect_with_box b b' = true) by (apply box_box_common; [exists x; exact P|exists x; exact P'|exists x; auto]). congruence.
Qed.

(** Two triangles side by side, across the diagonal of a square. *)
Definition low : triangle := Tri (V3 0 0 0) (V3 1 0 0) (V3 0 1 0) 0.
Definition high : triangle := Tri (V3 2 2 0) (V3 (1 / 2) 2 0) (V3 2 (3 / 4) 0) 1.

Lemma boxes_meet : exists b b', box_from_triangles [low] = Ok b /\ box_from_triangles [high] = Ok b' /\ is_potential_intersect_with_box b b' = true /\
  forall x, in_triangle (ta low) (tb low) (tc low) x -> in_triangle (ta high) (tb high) (tc high) x -> False.
Proof.
  destruct (triangles_box [low]) as (b & E & A & _); [discriminate|]. destruct (triangles_box [high]) as (b' & E' & A' & _); [discriminate|].
  exists b, b'. split; [exact E|]. split; [exact E'|]. split.
  - assert (T : forall t : triangle, in_triangle (ta t) (tb t) (tc t) (ta t) /\ in_triangle (ta t) (tb t) (tc t) (tb t) /\ in_triangle (ta t) (tb t) (tc t) (tc t)).
    { intros t. split; [exists 1, 0, 0|split; [exists 0, 1, 0|exists 0, 0, 1]]; repeat split; lra. }
    destruct (T low) as (L1 & L2 & L3). destruct (T high) as (H1 & H2 & H3).
    pose proof (A low _ (or_introl eq_refl) L1) as P1. pose proof (A low _ (or_introl eq_refl) L2) as P2. pose proof (A low _ (or_introl eq_refl) L3) as P3.
    pose proof (A' high _ (or_introl eq_refl) H1) as Q1. pose proof (A' high _ (or_introl eq_refl) H2) as Q2. pose proof (A' high _ (or_introl eq_refl) H3) as Q3.
    apply box_box_common; [exists (ta low); exact P1|exists (ta high); exact Q1|]. exists (V3 1 1 0).
    unfold in_box in *. cbn in *. repeat split; lra.
  - intros x (u & v & w & Hu & Hv & Hw & S & X & Y & _) (u' & v' & w' & Hu' & Hv' & Hw' & S' & X' & Y' & _). cbn in *. lra.
Qed.
