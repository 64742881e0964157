(** Proofs of C129. *)

From Coq Require Import ZArith Ascii String Bool List Lia.
From Verif Require Import Py PyLemmas TextLemmas Heap HeapLemmas GridModel Mpi GridIO FileSpec LoadParse LoadPlace LoadMain
  Utils Driver Stamps Programs Remesh ContentsSpec ContentsProofs AnsysSpec AnsysText ForeignSpec.
Import ListNotations.
Open Scope list_scope.
Open Scope nat_scope.

Lemma blank_foreign : forall l, blank_line l -> foreign_line l.
Proof.
  intros l H. split.
  - destruct l as [|c l]; [discriminate|]. cbn. intros E. injection E as ->. destruct (H hash (or_introl eq_refl)) as [K|[K|[K|K]]]; discriminate K.
  - intros key Hk (a & b & ->). assert (T : In "T"%char (lit key) \/ In "V"%char (lit key)).
    { destruct Hk as [<-|[<-|[<-|[]]]]; cbn; auto 20. }
    destruct T as [T|T].
    + destruct (H "T"%char) as [K|[K|[K|K]]]; try discriminate K. apply in_or_app. right. apply in_or_app. left. exact T.
    + destruct (H "V"%char) as [K|[K|[K|K]]]; try discriminate K. apply in_or_app. right. apply in_or_app. left. exact T.
Qed.

Section Foreign.
  Context {F : FloatOps}.
  #[local] Strategy expand [build_zone build_event load_zone load_nodes load_faces load_conn for_each load_loop].

  Lemma foreign_stop : forall k merge vars x rest, foreign_line x -> load_loop (S k) merge vars (x :: rest) = raise EException.
  Proof.
    intros k merge vars x rest [H K]. cbn [load_loop]. apply hash_hd_false in H. rewrite H.
    assert (A : forall key, In key ["TITLE="; "VARIABLES="; "ZONE T="]%string -> contains (lit key) x = false) by (intros key Hk; apply contains_not; auto).
    rewrite (A "TITLE="%string), (A "VARIABLES="%string), (A "ZONE T="%string); cbn; auto 10.
  Qed.

  Lemma loop_stops : forall vars ps evs, pieces vars ps evs -> forall x rest, foreign_line x ->
    forall fuel merge h, length (flat_map lines_of_piece ps ++ x :: rest) < fuel ->
      load_loop fuel merge vars (flat_map lines_of_piece ps ++ x :: rest) h = bind (for_each evs (build_event merge)) (fun _ => raise EException) h.
  Proof.
    intros vars ps evs H. induction H as [vars|vars l ps evs C H IH|vars l ps s evs T H IH|vars l ps vars' evs V H IH|vars l l1 l2 l3 l4 l5 nums conns ps zr evs Z B Ln Lc H IH];
      intros x rest Hx fuel merge h Hf; (destruct fuel as [|k]; [cbn in Hf; lia|]).
    - cbn [flat_map app]. rewrite foreign_stop by exact Hx. reflexivity.
    - change (flat_map lines_of_piece (PLine l :: ps) ++ x :: rest) with (l :: (flat_map lines_of_piece ps ++ x :: rest)) in *. cbn [load_loop].
      apply hash_hd in C. rewrite C. apply IH; [exact Hx|]. cbn in Hf. lia.
    - change (flat_map lines_of_piece (PLine l :: ps) ++ x :: rest) with (l :: (flat_map lines_of_piece ps ++ x :: rest)) in *. cbn [load_loop].
      destruct T as (H1 & H2 & s' & H3 & ->). apply hash_hd_false in H1. rewrite H1, H2.
      unfold title_of. change 1%Z with (Z.of_nat 1) at 1. rewrite (py_get_nat _ _ _ _ H3).
      cbn [rbind]. rewrite bind_lift_ok. rewrite bind_modify. rewrite IH; [reflexivity|exact Hx|]. cbn in Hf. lia.
    - change (flat_map lines_of_piece (PLine l :: ps) ++ x :: rest) with (l :: (flat_map lines_of_piece ps ++ x :: rest)) in *. cbn [load_loop].
      destruct V as (H1 & H2 & H3 & s' & H4 & ->). apply hash_hd_false in H1. rewrite H1, H2, H3.
      unfold variables_of. rewrite after_eq_spec. unfold last_part in H4. rewrite <- H4.
      cbn [rbind]. rewrite bind_lift_ok. apply IH; [exact Hx|]. cbn in Hf. lia.
    - assert (E : flat_map lines_of_piece (PZone l l1 l2 l3 l4 l5 nums conns :: ps) ++ x :: rest =
        l :: (l1 :: l2 :: l3 :: l4 :: l5 :: nums ++ conns ++ (flat_map lines_of_piece ps ++ x :: rest))).
      { cbn [flat_map lines_of_piece app]. rewrite <- !app_assoc. reflexivity. }
      rewrite E in *. cbn [load_loop].
      pose proof (block_same vars l1 l2 l3 l4 l5 nums nums conns conns zr (flat_map lines_of_piece ps ++ x :: rest) B Ln Lc (floats_refl _) (ints_refl _)) as B2.
      pose proof Z as (P1 & P2 & P3 & P4 & _). apply hash_hd_false in P1. rewrite P1, P2, P3, P4.
      unfold bind at 1. rewrite (load_zone_build merge vars l _ zr _ h Z B2).
      cbn [for_each build_event]. unfold bind.
      destruct (build_zone merge zr h) as [[[]|e] h1]; auto. cbn [ret].
      rewrite IH; [reflexivity|exact Hx|]. apply zone_block_rest in B2. cbn [length] in Hf, B2. lia.
  Qed.

  Lemma pieces_form : forall ps evs, pieces [] ps evs -> file_form [] (flat_map lines_of_piece ps) evs.
  Proof. intros ps evs H. exact (rewritten_form ps ps (rewritten_refl ps) [] evs H). Qed.

  (** The load stops at the line; the grid has the zones before it, without edges. *)
  Theorem foreign_main : forall t ps evs x rest, pieces [] ps evs -> file_lines t = flat_map lines_of_piece ps ++ x :: rest -> foreign_line x ->
    forall merge h, exists h', load merge t h = (Raise EException, h') /\ holds_zones (zones_of evs) h' /\ g_edges h' = [] /\
      (forall f, In f (g_faces h') -> f_edges h' f = []) /\ g_name h' = title_after (g_name h) evs.
  Proof.
    intros t ps evs x rest P El Hx merge h. destruct (clear_run h) as (h0 & E0 & A1 & A2 & A3 & A4 & A5 & A6 & A7).
    destruct (build_events_ok merge evs [] h0) as (h1 & E1 & B1 & B2 & B3).
    { apply placed_start; auto. }
    { apply (file_form_ok _ _ _ (pieces_form _ _ P)). }
    exists h1. split.
    - unfold load. rewrite (bind_run _ _ _ _ _ _ _ E0). cbv zeta. rewrite El. unfold bind at 1. rewrite (loop_stops _ _ _ P x rest Hx); [|lia].
      unfold bind. rewrite E1. reflexivity.
    - split; [exact (placed_holds _ _ _ B1)|]. destruct B1 as (reps & _ & _ & Fr & _). split; [exact (fr_ge _ Fr)|]. split; [exact (fr_edges _ Fr)|]. congruence.
  Qed.

  Theorem foreign_split : forall t, (forall h, fst (load true t h) = Raise EException) -> forall stem sf strat fixed rf h,
    fst (split_run stem (Some t) sf strat fixed rf h) = Raise EException.
  Proof.
    intros t H stem sf strat fixed rf h. unfold split_run. destruct (get_filename_and_timestamp_pair stem) as [nm ts].
    destruct (str_eqb sf (lit ".dat")); [|reflexivity].
    unfold split_decompose, bind, modify. cbv beta iota.
    match goal with |- context [load true t ?k] => pose proof (H k) as L; destruct (load true t k) as [r h1] end. cbn in L. subst r. reflexivity.
  Qed.

  Theorem foreign_remesh : forall t, (forall h, fst (load true t h) = Raise EException) -> forall real near fix_nodes o h,
    fst (remesh_file real near fix_nodes o t h) = Raise EException.
  Proof.
    intros t H real near fix_nodes o h. unfold remesh_file, bind, modify. cbv beta iota.
    match goal with |- context [load true t ?k] => pose proof (H k) as L; destruct (load true t k) as [r h1] end. cbn in L. subst r. reflexivity.
  Qed.
End Foreign.
