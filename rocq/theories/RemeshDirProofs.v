(** Proofs about the program remesh.py over files. *)

From Coq Require Import ZArith Ascii String Bool Lia List.
From Verif Require Import Py PyLemmas TextLemmas Programs ProgramsSpec ProgramsNames RemeshDir RemeshDirSpec.
Import ListNotations.
Open Scope list_scope.
Open Scope nat_scope.

Lemma put_at : forall d p t, put d p t p = t.
Proof. intros. unfold put. destruct (path_dec p p); congruence. Qed.
Lemma put_other : forall d p t q, q <> p -> put d p t q = d q.
Proof. intros. unfold put. destruct (path_dec q p); congruence. Qed.

Section Loop.
  Variables (job : str -> res str) (left : str -> option str -> option str) (outdir : str).
  Let target m := parts (remesh_name outdir m).
  Let run := remesh_meshes job left outdir.

  Lemma untouched : forall ms d p, ~ In p (map target ms) -> snd (run ms d) p = d p.
  Proof.
    induction ms as [|m ms IH]; intros d p H; [reflexivity|]. cbn [run remesh_meshes]. unfold run in *. cbn [remesh_meshes].
    destruct (d (parts m)) as [text|]; [|reflexivity]. cbn in H.
    destruct (job text); cbn [snd]; [rewrite IH by tauto|]; apply put_other; intros ->; apply H; left; reflexivity.
  Qed.

  Lemma run_app : forall a b d, fst (run a d) = Ok tt -> run (a ++ b) d = run b (snd (run a d)).
  Proof.
    induction a as [|m a IH]; intros b d H; [reflexivity|]. unfold run in *. cbn [app remesh_meshes] in *.
    destruct (d (parts m)) as [text|]; [|discriminate H]. destruct (job text); [|discriminate H]. apply IH. exact H.
  Qed.

  Lemma results : forall ms d, fst (run ms d) = Ok tt -> NoDup (map target ms) -> (forall m m', In m ms -> In m' ms -> target m <> parts m') ->
    forall m, In m ms -> exists text out, d (parts m) = Some text /\ job text = Ok out /\ snd (run ms d) (target m) = Some out.
  Proof.
    induction ms as [|x ms IH]; intros d H N D m Hm; [destruct Hm|]. pose proof H as H0. unfold run in H. cbn [remesh_meshes] in H.
    destruct (d (parts x)) as [text|] eqn:Et; [|discriminate H]. destruct (job text) as [out|] eqn:Ej; [|discriminate H].
    assert (E : run (x :: ms) d = run ms (put d (target x) (Some out))) by (unfold run at 1; cbn [remesh_meshes]; rewrite Et, Ej; reflexivity).
    rewrite E. inversion N as [|? ? N1 N2]; subst. destruct Hm as [<-|Hm].
    - exists text, out. split; [exact Et|]. split; [exact Ej|]. rewrite untouched by exact N1. apply put_at.
    - destruct (IH (put d (target x) (Some out)) H N2 (fun a b Ha Hb => D a b (or_intror Ha) (or_intror Hb)) m Hm) as (t & o & A & B & C).
      exists t, o. split; [|auto]. rewrite put_other in A; [exact A|]. intros K. apply (D x m); [left; reflexivity|right; exact Hm|symmetry; exact K].
  Qed.

  Lemma succeeds : forall ms d, (forall m m', In m ms -> In m' ms -> target m <> parts m') ->
    (forall m, In m ms -> exists text out, d (parts m) = Some text /\ job text = Ok out) -> fst (run ms d) = Ok tt.
  Proof.
    induction ms as [|x ms IH]; intros d D A; [reflexivity|]. unfold run. cbn [remesh_meshes]. destruct (A x (or_introl eq_refl)) as (t & o & -> & ->).
    apply IH; [intros a b Ha Hb; apply D; right; assumption|]. intros m Hm. destruct (A m (or_intror Hm)) as (t' & o' & B & C). exists t', o'. split; [|exact C].
    fold (target x). rewrite put_other; [exact B|]. intros K. apply (D x m); [left; reflexivity|right; exact Hm|symmetry; exact K].
  Qed.

  Lemma stops : forall a m b d text e, (forall m1 m2, In m1 (a ++ m :: b) -> In m2 (a ++ m :: b) -> target m1 <> parts m2) -> NoDup (map target (a ++ m :: b)) ->
    (forall m', In m' a -> exists t o, d (parts m') = Some t /\ job t = Ok o) -> d (parts m) = Some text -> job text = Raise e ->
    fst (run (a ++ m :: b) d) = Raise e /\ (forall m', In m' a -> exists t o, d (parts m') = Some t /\ job t = Ok o /\ snd (run (a ++ m :: b) d) (target m') = Some o) /\
    (forall m', In m' b -> snd (run (a ++ m :: b) d) (target m') = d (target m')).
  Proof.
    intros a m b d text e D N A Em Ej.
    assert (Da : forall m1 m2, In m1 a -> In m2 a -> target m1 <> parts m2) by (intros; apply D; apply in_or_app; auto).
    pose proof (succeeds a d Da A) as R. rewrite map_app in N. cbn [map] in N.
    assert (Na : NoDup (map target a)) by (clear - N; induction (map target a) as [|y l IH]; [constructor|]; cbn in N; inversion N as [|? ? P Q]; subst; constructor; [intros K; apply P; apply in_or_app; left; exact K|auto]).
    assert (E : run (a ++ m :: b) d = (Raise e, put (snd (run a d)) (target m) (left text (snd (run a d) (target m))))).
    { rewrite run_app by exact R. unfold run at 1. cbn [remesh_meshes]. rewrite untouched.
      - rewrite Em, Ej. reflexivity.
      - intros K. apply in_map_iff in K. destruct K as (m' & K & Hm'). apply (D m' m); [apply in_or_app; auto|apply in_or_app; right; left; reflexivity|exact K]. }
    rewrite E. cbn [fst snd]. split; [reflexivity|]. split.
    - intros m' Hm'. destruct (results a d R Na Da m' Hm') as (t & o & B & C & G). exists t, o. split; [exact B|]. split; [exact C|]. rewrite put_other; [exact G|].
      intros K. apply NoDup_remove_2 in N. apply N. apply in_or_app. left. rewrite <- K. apply in_map. exact Hm'.
    - intros m' Hm'. pose proof (NoDup_remove_2 _ _ _ N) as N2. rewrite put_other.
      + apply untouched. intros K. clear - N K Hm'. induction (map target a) as [|y l IH]; [destruct K|]. cbn in N. inversion N as [|? ? P Q]; subst. destruct K as [->|K]; [|auto].
        apply P. apply in_or_app. right. right. apply in_map. exact Hm'.
      + intros K. apply N2. apply in_or_app. right. rewrite <- K. apply in_map. exact Hm'.
  Qed.
End Loop.

(* ------------------------------------------------------------------ *)
(** Paths *)

Lemma split_app : forall s n, no_slash n -> split_on "/"%char (s ++ lit "/" ++ n) = split_on "/"%char s ++ [n].
Proof.
  intros s n H. assert (E : split_on "/"%char n = [n]).
  { apply split_on_none. intros K. unfold no_slash in H. assert (existsb (Ascii.eqb "/"%char) n = true) by (apply existsb_exists; exists "/"%char; split; [exact K|reflexivity]). congruence. }
  induction s as [|c s IH].
  - change (lit "/" ++ n) with ("/"%char :: n). cbn [app split_on]. rewrite Ascii.eqb_refl, E. reflexivity.
  - cbn [app split_on]. destruct (Ascii.eqb c "/"); [rewrite IH; reflexivity|]. rewrite IH. destruct (split_on "/"%char s) as [|w ws] eqn:K; [|reflexivity].
    destruct s as [|y s]; cbn in K; [discriminate K|]. destruct (Ascii.eqb y "/"); [discriminate K|]. destruct (split_on "/"%char s); discriminate K.
Qed.

Lemma parts_app : forall s n, s <> [] -> no_slash n -> n <> [] -> n <> lit "." -> parts (s ++ lit "/" ++ n) = (fst (parts s), snd (parts s) ++ [n]).
Proof.
  intros s n Hs Hn H1 H2. unfold parts. cbn [fst snd]. rewrite split_app by exact Hn. rewrite filter_app. f_equal.
  - destruct s as [|c s]; [congruence|]. cbn. reflexivity.
  - f_equal. cbn [filter]. unfold str_eqb. destruct (str_dec n []); [congruence|]. destruct (str_dec n (lit ".")); [congruence|]. reflexivity.
Qed.

Lemma parts_slash : forall s n, s <> [] -> no_slash n -> n <> [] -> n <> lit "." -> parts (s ++ lit "//" ++ n) = (fst (parts s), snd (parts s) ++ [n]).
Proof.
  intros s n Hs Hn H1 H2. change (lit "//" ++ n) with (lit "/" ++ lit "/" ++ n). rewrite app_assoc. rewrite parts_app; auto.
  - unfold parts. cbn [fst snd]. f_equal; [destruct s; [congruence|reflexivity]|]. f_equal. change (lit "/") with (lit "/" ++ []). rewrite split_app by reflexivity. rewrite filter_app. cbn. apply app_nil_r.
  - destruct s; [congruence|discriminate].
Qed.


Lemma replace_no_slash : forall k n, no_slash n -> no_slash (replace_from k (lit "_r_") (lit "_") n).
Proof.
  unfold no_slash. induction k as [|k IH]; intros n H; [exact H|]. cbn [replace_from]. destruct n as [|c n]; [reflexivity|].
  destruct (prefixb (lit "_r_") (c :: n)).
  - rewrite existsb_app. rewrite IH; [reflexivity|]. clear - H. revert H. generalize (c :: n). intros l H. generalize (length (lit "_r_")). intros m. revert l H. induction m as [|m IHm]; intros l H; [exact H|].
    destruct l as [|x l]; [reflexivity|]. cbn in *. apply orb_false_iff in H. apply IHm. apply H.
  - cbn [existsb] in *. apply orb_false_iff in H. destruct H as [H1 H2]. rewrite H1. apply IH. exact H2.
Qed.

(** Long names stay long. *)
Lemma replace_ends : forall k n, ends_with (lit ".dat") n = true -> length n <= k -> ends_with (lit ".dat") (replace_from k (lit "_r_") (lit "_") n) = true.
Proof.
  assert (Cons : forall c l, ends_with (lit ".dat") l = true -> ends_with (lit ".dat") (c :: l) = true) by (intros c l H; cbn [ends_with]; rewrite H; apply orb_true_r).
  assert (Inv : forall c l, c <> "."%char -> ends_with (lit ".dat") (c :: l) = true -> ends_with (lit ".dat") l = true).
  { intros c l Hc H. cbn [ends_with] in H. apply orb_true_iff in H. destruct H as [H|H]; [|exact H]. unfold str_eqb in H. destruct (str_dec (lit ".dat") (c :: l)) as [E|]; [|discriminate H]. injection E as E _. congruence. }
  induction k as [|k IH]; intros n H L; [exact H|]. cbn [replace_from]. destruct n as [|c n]; [exact H|]. destruct (prefixb (lit "_r_") (c :: n)) eqn:P.
  - destruct n as [|c2 [|c3 n]].
    + exfalso. cbn in P. destruct c as [[] [] [] [] [] [] [] []]; discriminate P.
    + exfalso. change (Ascii.eqb "_" c && (Ascii.eqb "r" c2 && false) = true) in P. rewrite !andb_false_r in P. discriminate P.
    + change (Ascii.eqb "_" c && (Ascii.eqb "r" c2 && (Ascii.eqb "_" c3 && true)) = true) in P.
      apply andb_true_iff in P. destruct P as [P1 P]. apply andb_true_iff in P. destruct P as [P2 P]. apply andb_true_iff in P. destruct P as [P3 _].
      apply Ascii.eqb_eq in P1, P2, P3. subst. apply Cons. cbn [skipn length lit list_ascii_of_string]. apply IH; [|cbn in L; lia].
      do 3 (apply Inv in H; [|discriminate]). exact H.
  - cbn [ends_with] in H. apply orb_true_iff in H. destruct H as [H|H].
    + unfold str_eqb in H. destruct (str_dec (lit ".dat") (c :: n)) as [E|]; [|discriminate H]. injection E as <- <-. destruct k as [|[|[|[|k]]]]; reflexivity.
    + apply Cons. apply IH; [exact H|cbn in L; lia].
Qed.

Lemma dat_name : forall n, ends_with (lit ".dat") n = true -> n <> [] /\ n <> lit ".".
Proof. intros n H. split; intros ->; discriminate H. Qed.

Lemma ends_path : forall s n, no_slash n -> ends_with (lit ".dat") (s ++ lit "/" ++ n) = ends_with (lit ".dat") n.
Proof.
  intros s n H. assert (E : ends_with (lit ".dat") (lit "/" ++ n) = ends_with (lit ".dat") n) by (change (lit "/" ++ n) with ("/"%char :: n); cbn [ends_with]; destruct (str_eqb (lit ".dat") ("/"%char :: n)) eqn:K; [|reflexivity]; unfold str_eqb in K; destruct (str_dec (lit ".dat") ("/"%char :: n)) as [X|]; [discriminate X|discriminate K]).
  induction s as [|c s IH]; [exact E|]. cbn [app ends_with]. rewrite IH. destruct (str_eqb (lit ".dat") (c :: s ++ lit "/" ++ n)) eqn:K; [|reflexivity].
  unfold str_eqb in K. destruct (str_dec (lit ".dat") (c :: s ++ lit "/" ++ n)) as [X|]; [|discriminate K]. exfalso.
  assert (I : In "/"%char (lit ".dat")) by (rewrite X; right; apply in_or_app; right; left; reflexivity). cbn in I. repeat (destruct I as [I|I]; [discriminate I|]). destruct I.
Qed.

Lemma meshes_dir : forall s l, Forall no_slash l -> meshes_of (Dir s) l = map (fun n => s ++ lit "/" ++ n) (grids_of l).
Proof.
  intros s l H. unfold meshes_of, grids_of. induction H as [|n l H _ IH]; [reflexivity|]. cbn [map filter]. rewrite ends_path by exact H.
  destruct (ends_with (lit ".dat") n); cbn [map]; rewrite IH; reflexivity.
Qed.

Section Directory.
  Variables (s o : str) (listing : list str).
  Hypotheses (Hs : s <> []) (Ho : o <> []) (Hn : Forall no_slash listing).

  Lemma grid_in : forall n, In n (grids_of listing) -> no_slash n /\ ends_with (lit ".dat") n = true.
  Proof. intros n H. apply filter_In in H. destruct H as [A B]. rewrite Forall_forall in Hn. auto. Qed.

  Lemma source_path : forall n, In n (grids_of listing) -> parts (s ++ lit "/" ++ n) = file_in s n.
  Proof. intros n H. destruct (grid_in n H) as [A B]. destruct (dat_name n B). apply parts_app; auto. Qed.

  Lemma target_path : forall n, In n (grids_of listing) -> parts (remesh_name o (s ++ lit "/" ++ n)) = file_in o (renamed n).
  Proof.
    intros n H. destruct (grid_in n H) as [A B]. unfold remesh_name. rewrite from_slash by exact A.
    assert (E : replace_all (lit "_r_") (lit "_") (lit "/" ++ n) = lit "/" ++ renamed n) by reflexivity. rewrite E. change (lit "/" ++ lit "/" ++ renamed n) with (lit "//" ++ renamed n).
    assert (B' : ends_with (lit ".dat") (renamed n) = true) by (apply replace_ends; [exact B|lia]). destruct (dat_name _ B').
    apply parts_slash; auto. apply replace_no_slash. exact A.
  Qed.

  Lemma targets : map (fun m => parts (remesh_name o m)) (meshes_of (Dir s) listing) = map (file_in o) (map renamed (grids_of listing)).
  Proof. rewrite meshes_dir by exact Hn. rewrite !map_map. apply map_ext_in. intros n H. apply target_path. exact H. Qed.

  Lemma file_in_inj : forall d a b, file_in d a = file_in d b -> a = b.
  Proof. intros d a b H. injection H as H. apply app_inj_tail in H. apply H. Qed.

  Lemma targets_nodup : NoDup (map renamed (grids_of listing)) -> NoDup (map (fun m => parts (remesh_name o m)) (meshes_of (Dir s) listing)).
  Proof. intros N. rewrite targets. apply FinFun.Injective_map_NoDup; [|exact N]. intros a b. apply file_in_inj. Qed.

  Lemma apart_dirs : parts s <> parts o -> forall m m', In m (meshes_of (Dir s) listing) -> In m' (meshes_of (Dir s) listing) -> parts (remesh_name o m) <> parts m'.
  Proof.
    intros D m m' H H' E. rewrite meshes_dir in H, H' by exact Hn. apply in_map_iff in H. destruct H as (n & <- & H). apply in_map_iff in H'. destruct H' as (n' & <- & H').
    rewrite target_path, source_path in E by assumption. apply pair_equal_spec in E. destruct E as [E1 E2]. apply app_inj_tail in E2. destruct E2 as [E2 _]. apply D. apply injective_projections; symmetry; assumption.
  Qed.

  Variables (job : str -> res str) (left : str -> option str -> option str).

  Theorem dir_others : forall d p, (forall n, In n (grids_of listing) -> p <> file_in o (renamed n)) -> snd (remesh_main job left (Dir s) o listing d) p = d p.
  Proof.
    intros d p H. apply untouched. rewrite targets. intros K. rewrite map_map in K. apply in_map_iff in K. destruct K as (n & K & Hi). apply (H n Hi). symmetry. exact K.
  Qed.

  Theorem dir_results : forall d d', parts s <> parts o -> NoDup (map renamed (grids_of listing)) -> remesh_main job left (Dir s) o listing d = (Ok tt, d') ->
    forall n, In n (grids_of listing) -> exists text out, d (file_in s n) = Some text /\ job text = Ok out /\ d' (file_in o (renamed n)) = Some out.
  Proof.
    intros d d' D N R n H. assert (I : In (s ++ lit "/" ++ n) (meshes_of (Dir s) listing)) by (rewrite meshes_dir by exact Hn; apply (in_map (fun n => s ++ lit "/" ++ n)); exact H).
    unfold remesh_main in R. destruct (results job left o (meshes_of (Dir s) listing) d) with (m := s ++ lit "/" ++ n) as (t & r & A & B & C); auto.
    - rewrite R. reflexivity.
    - apply targets_nodup. exact N.
    - apply apart_dirs. exact D.
    - exists t, r. rewrite R in C. cbn [snd] in C. rewrite target_path in C by exact H. rewrite source_path in A by exact H. auto.
  Qed.

  Theorem dir_succeeds : forall d, parts s <> parts o -> (forall n, In n (grids_of listing) -> exists text out, d (file_in s n) = Some text /\ job text = Ok out) ->
    fst (remesh_main job left (Dir s) o listing d) = Ok tt.
  Proof.
    intros d D A. apply succeeds; [apply apart_dirs; exact D|]. intros m H. rewrite meshes_dir in H by exact Hn. apply in_map_iff in H. destruct H as (n & <- & H).
    destruct (A n H) as (t & r & B & C). exists t, r. rewrite source_path by exact H. auto.
  Qed.

  Theorem dir_stops : forall a n b d text e, grids_of listing = a ++ n :: b -> parts s <> parts o -> NoDup (map renamed (grids_of listing)) ->
    (forall k, In k a -> exists t r, d (file_in s k) = Some t /\ job t = Ok r) -> d (file_in s n) = Some text -> job text = Raise e ->
    exists d', remesh_main job left (Dir s) o listing d = (Raise e, d') /\
      (forall k, In k a -> exists t r, d (file_in s k) = Some t /\ job t = Ok r /\ d' (file_in o (renamed k)) = Some r) /\
      (forall k, In k b -> d' (file_in o (renamed k)) = d (file_in o (renamed k))).
  Proof.
    intros a n b d text e G D N A En Ej. pose proof (apart_dirs D) as D'. pose proof (targets_nodup N) as N'. unfold remesh_main. rewrite meshes_dir in * by exact Hn.
    assert (I : forall k, In k a \/ k = n \/ In k b -> In k (grids_of listing)) by (intros k K; rewrite G; apply in_or_app; cbn; intuition congruence).
    rewrite G in D', N' |- *. rewrite map_app in *. cbn [map] in *.
    destruct (stops job left o _ _ _ d text e D' N') as (R1 & R2 & R3).
    - intros m H. apply in_map_iff in H. destruct H as (k & <- & H). rewrite source_path by auto. apply A. exact H.
    - rewrite source_path by auto. exact En.
    - exact Ej.
    - eexists. split; [apply injective_projections; [exact R1|reflexivity]|]. cbn [snd]. split; intros k H.
      + destruct (R2 (s ++ lit "/" ++ k)) as (t & r & B & C & E); [apply (in_map (fun n => s ++ lit "/" ++ n)); exact H|]. rewrite source_path in B by auto. rewrite target_path in E by auto. eauto.
      + specialize (R3 (s ++ lit "/" ++ k) (in_map (fun n => s ++ lit "/" ++ n) _ _ H)). rewrite target_path in R3 by auto. exact R3.
  Qed.
End Directory.

Lemma one_skipped : forall job left g o l d, ends_with (lit ".dat") g = false -> remesh_main job left (One g) o l d = (Ok tt, d).
Proof. intros job left g o l d H. unfold remesh_main, meshes_of. cbn [filter]. rewrite H. reflexivity. Qed.

Lemma one_replaced : forall job left g l d text out, no_slash g -> ends_with (lit ".dat") g = true -> contains (lit "_r_") g = false -> d (parts g) = Some text -> job text = Ok out ->
  exists d', remesh_main job left (One g) (lit ".") l d = (Ok tt, d') /\ d' (parts g) = Some out.
Proof.
  intros job left g l d text out S E C D J. unfold remesh_main, meshes_of. cbn [filter]. rewrite E. cbn [remesh_meshes]. rewrite D, J. eexists. split; [reflexivity|].
  assert (P : parts g = parts (remesh_name (lit ".") g)).
  { unfold remesh_name, replace_all. rewrite from_plain by exact S. rewrite replace_none by exact C. destruct (dat_name g E). rewrite parts_app by (auto; discriminate). 
    change (parts g = (false, [g])). destruct g as [|c g]; [congruence|]. assert (Hc : Ascii.eqb "/" c = false) by (unfold no_slash in S; cbn [existsb] in S; apply orb_false_iff in S; apply S).
    assert (Hp : prefixb (lit "/") (c :: g) = false) by (change (Ascii.eqb "/" c && true = false); rewrite Hc; reflexivity).
    unfold parts. rewrite Hp, split_on_none.
    - cbn [filter]. unfold str_eqb. destruct (str_dec (c :: g) []); [congruence|]. destruct (str_dec (c :: g) (lit ".")); [congruence|]. reflexivity.
    - intros K. unfold no_slash in S. assert (X : existsb (Ascii.eqb "/"%char) (c :: g) = true) by (apply existsb_exists; exists "/"%char; split; [exact K|reflexivity]). congruence. }
  rewrite P. apply put_at.
Qed.

(** Two names that meet. *)
Lemma two_meet : forall job left d t1 t2 r1 r2, d (file_in (lit "in") (lit "a_r_b.dat")) = Some t1 -> d (file_in (lit "in") (lit "a_b.dat")) = Some t2 -> job t1 = Ok r1 -> job t2 = Ok r2 ->
  exists d', remesh_main job left (Dir (lit "in")) (lit "out") [lit "a_r_b.dat"; lit "a_b.dat"] d = (Ok tt, d') /\ d' (file_in (lit "out") (lit "a_b.dat")) = Some r2 /\
    forall p, p <> file_in (lit "out") (lit "a_b.dat") -> d' p = d p.
Proof.
  intros job left d t1 t2 r1 r2 D1 D2 J1 J2. unfold remesh_main.
  change (meshes_of (Dir (lit "in")) [lit "a_r_b.dat"; lit "a_b.dat"]) with [lit "in/a_r_b.dat"; lit "in/a_b.dat"]. cbn [remesh_meshes].
  change (parts (lit "in/a_r_b.dat")) with (file_in (lit "in") (lit "a_r_b.dat")). rewrite D1, J1.
  change (parts (remesh_name (lit "out") (lit "in/a_r_b.dat"))) with (file_in (lit "out") (lit "a_b.dat")).
  change (parts (remesh_name (lit "out") (lit "in/a_b.dat"))) with (file_in (lit "out") (lit "a_b.dat")).
  change (parts (lit "in/a_b.dat")) with (file_in (lit "in") (lit "a_b.dat")). rewrite put_other by discriminate. rewrite D2, J2.
  eexists. split; [reflexivity|]. split; [apply put_at|]. intros p H. rewrite !put_other by exact H. reflexivity.
Qed.

(** One directory for grids and results: the second grid is lost before it is read. *)
Lemma same_dir : forall job left d t1 t2 r1 r2, d (file_in (lit "in") (lit "a_r_b.dat")) = Some t1 -> d (file_in (lit "in") (lit "a_b.dat")) = Some t2 -> job t1 = Ok r1 -> job r1 = Ok r2 ->
  exists d', remesh_main job left (Dir (lit "in")) (lit "in") [lit "a_r_b.dat"; lit "a_b.dat"] d = (Ok tt, d') /\ d' (file_in (lit "in") (lit "a_b.dat")) = Some r2.
Proof.
  intros job left d t1 t2 r1 r2 D1 D2 J1 J2. unfold remesh_main.
  change (meshes_of (Dir (lit "in")) [lit "a_r_b.dat"; lit "a_b.dat"]) with [lit "in/a_r_b.dat"; lit "in/a_b.dat"]. cbn [remesh_meshes].
  change (parts (lit "in/a_r_b.dat")) with (file_in (lit "in") (lit "a_r_b.dat")). rewrite D1, J1.
  change (parts (remesh_name (lit "in") (lit "in/a_r_b.dat"))) with (file_in (lit "in") (lit "a_b.dat")).
  change (parts (remesh_name (lit "in") (lit "in/a_b.dat"))) with (file_in (lit "in") (lit "a_b.dat")).
  change (parts (lit "in/a_b.dat")) with (file_in (lit "in") (lit "a_b.dat")). rewrite put_at, J2.
  eexists. split; [reflexivity|]. apply put_at.
Qed.

(** One grid: its result, and nothing else, is stored. *)
Lemma one_result : forall job left g o l d text out p, o <> [] -> (no_slash g \/ exists s n, s <> [] /\ no_slash n /\ g = s ++ lit "/" ++ n) ->
  ends_with (lit ".dat") g = true -> (forall n, no_slash n -> (g = n \/ exists s, g = s ++ lit "/" ++ n) -> p = file_in o (renamed n)) -> d (parts g) = Some text -> job text = Ok out ->
  exists d', remesh_main job left (One g) o l d = (Ok tt, d') /\ d' p = Some out /\ forall q, q <> p -> d' q = d q.
Proof.
  intros job left g o l d text out p Ho G E P D J. unfold remesh_main, meshes_of. cbn [filter]. rewrite E. cbn [remesh_meshes]. rewrite D, J. eexists. split; [reflexivity|].
  assert (T : parts (remesh_name o g) = p).
  { destruct G as [S|(s & n & Hs & S & ->)].
    - rewrite (P g S (or_introl eq_refl)). unfold remesh_name. rewrite from_plain by exact S.
      assert (B : ends_with (lit ".dat") (renamed g) = true) by (apply replace_ends; [exact E|lia]). destruct (dat_name _ B). apply parts_app; auto. apply replace_no_slash. exact S.
    - rewrite (P n S) by (right; exists s; reflexivity). rewrite ends_path in E by exact S. unfold remesh_name. rewrite from_slash by exact S.
      assert (X : replace_all (lit "_r_") (lit "_") (lit "/" ++ n) = lit "/" ++ renamed n) by reflexivity. rewrite X. change (lit "/" ++ lit "/" ++ renamed n) with (lit "//" ++ renamed n).
      assert (B : ends_with (lit ".dat") (renamed n) = true) by (apply replace_ends; [exact E|lia]). destruct (dat_name _ B). apply parts_slash; auto. apply replace_no_slash. exact S. }
  rewrite T. split; [apply put_at|]. intros q Hq. apply put_other. exact Hq.
Qed.

Lemma one_plain : forall job left g o l d text out, o <> [] -> no_slash g -> ends_with (lit ".dat") g = true -> d (parts g) = Some text -> job text = Ok out ->
  exists d', remesh_main job left (One g) o l d = (Ok tt, d') /\ d' (file_in o (renamed g)) = Some out /\ forall q, q <> file_in o (renamed g) -> d' q = d q.
Proof.
  intros job left g o l d text out Ho S E D J. apply (one_result job left g o l d text out); auto. intros n Hn [->|(s & K)]; [reflexivity|].
  exfalso. unfold no_slash in S. rewrite K, existsb_app in S. cbn in S. rewrite orb_true_r in S. discriminate S.
Qed.

Lemma one_deep : forall job left s n o l d text out, o <> [] -> s <> [] -> no_slash n -> ends_with (lit ".dat") n = true -> d (file_in s n) = Some text -> job text = Ok out ->
  exists d', remesh_main job left (One (s ++ lit "/" ++ n)) o l d = (Ok tt, d') /\ d' (file_in o (renamed n)) = Some out /\ forall q, q <> file_in o (renamed n) -> d' q = d q.
Proof.
  intros job left s n o l d text out Ho Hs S E D J. destruct (dat_name _ E) as [E1 E2]. apply (one_result job left (s ++ lit "/" ++ n) o l d text out); auto.
  - right. exists s, n. auto.
  - rewrite ends_path; auto.
  - intros m Hm K. pose proof (from_slash s n S) as F1. destruct K as [K|(s' & K)].
    + exfalso. unfold no_slash in Hm. rewrite <- K, existsb_app in Hm. cbn in Hm. rewrite orb_true_r in Hm. discriminate Hm.
    + rewrite K, from_slash in F1 by exact Hm. injection F1 as ->. reflexivity.
  - rewrite parts_app by auto. exact D.
Qed.

(** Names without '_r_' do not meet. *)
Lemma plain_names : forall l, NoDup l -> (forall n, In n l -> contains (lit "_r_") n = false) -> NoDup (map renamed (grids_of l)).
Proof.
  intros l N H. assert (E : map renamed (grids_of l) = grids_of l).
  { rewrite <- map_id. apply map_ext_in. intros n Hn. apply replace_none. apply H. apply filter_In in Hn. apply Hn. }
  rewrite E. apply NoDup_filter. exact N.
Qed.
