(** Proofs about the calc data file: written by store_faces_calc_data, read by
    load_faces_calc_data. *)

From Coq Require Import ZArith NArith Ascii String Bool Lia List.
From Verif Require Import Py PyLemmas TextLemmas Heap HeapLemmas GridModel GridSpec Mpi MpiSpec GridIO FileSpec LoadParse StoreSpec StoreProofs RoundTrip
  Driver DriverSpec DriverProofs SamplesStore Import.
Import ListNotations.
Open Scope list_scope.
Open Scope nat_scope.

Section Calc.
  Context {F : FloatOps}.
  Variables (add : val -> val -> val) (rand : nat -> val * val * val).

  (** The values of the line of a face. *)
  Definition drawn (h : heap) (f : nat) : list val :=
    let '(r1, r2, r3) := rand f in
    [add (var_value h f (lit "T")) r1; add (var_value h f (lit "Hw")) r2; add (var_value h f (lit "Hi")) r3].

  Lemma word_nat : forall n, word (nat_str n).
  Proof. apply word_digits. Qed.

  Lemma calc_str_words : forall h f i, faithful_numbers -> f_glo h f = Z.of_nat i ->
    split_ws (calc_str add rand h f ++ [nl]) = nat_str i :: map fmt (drawn h f) /\ whole_line (calc_str add rand h f ++ [nl]).
  Proof.
    intros h f i Hn Hg. unfold calc_str, drawn. destruct (rand f) as [[r1 r2] r3]. rewrite Hg, Z_str_nat.
    set (ws := nat_str i :: map fmt _).
    assert (W : forall w, In w ws -> word w).
    { intros w [<-|I]; [apply word_nat|]. apply in_map_iff in I as (v & <- & _). destruct (Hn v) as (_ & A & B). split; auto. }
    change (lit " ") with [sp]. split.
    - rewrite (split_ws_join ws [nl]); auto.
    - apply plain_line. intros c I. apply (join_chars ws c W I).
  Qed.

  Theorem calc_round : forall h, faithful_numbers -> NoDup (g_faces h) ->
    (forall i f, nth_error (g_faces h) i = Some f -> f_glo h f = Z.of_nat i) ->
    exists h', load_faces_calc_data (store_faces_calc_data add rand h) h = (Ok tt, h') /\ h' = set_f_data h (f_data h') /\
      (forall f, In f (g_faces h) -> f_data h' f = combine (map lit ["T"; "Hw"; "Hi"]%string) (drawn h f)) /\
      (forall f, ~ In f (g_faces h) -> f_data h' f = f_data h f).
  Proof.
    intros h Hn Nd Hg.
    set (vars := map lit ["T"; "Hw"; "Hi"]%string).
    set (rows := map (fun f => (f_glo h f, drawn h f)) (g_faces h)).
    assert (C : calc_file (store_faces_calc_data add rand h) vars rows).
    { exists (lit "VARIABLES=""GloId"", ""T"", ""Hw"", ""Hi""" ++ [nl]), (map (fun f => calc_str add rand h f ++ [nl]) (g_faces h)).
      assert (E : file_lines (store_faces_calc_data add rand h) =
        (lit "VARIABLES=""GloId"", ""T"", ""Hw"", ""Hi""" ++ [nl]) :: map (fun f => calc_str add rand h f ++ [nl]) (g_faces h)).
      { unfold store_faces_calc_data.
        change (lit "VARIABLES=""GloId"", ""T"", ""Hw"", ""Hi""" ++ [nl] ++ concat (map (fun f => calc_str add rand h f ++ [nl]) (g_faces h)))
          with (concat ((lit "VARIABLES=""GloId"", ""T"", ""Hw"", ""Hi""" ++ [nl]) :: map (fun f => calc_str add rand h f ++ [nl]) (g_faces h))).
        apply file_lines_concat. intros l [<-|I].
        - apply plain_line. intros c I. eapply lit_plain; [|exact I]. reflexivity.
        - apply in_map_iff in I as (f & <- & I). apply In_nth_error in I as (i & I). apply (calc_str_words h f i Hn (Hg i f I)). }
      rewrite E. split; [reflexivity|]. split.
      - eexists. split; [reflexivity|]. reflexivity.
      - unfold rows. clear E rows.
        assert (K : forall l, (forall f, In f l -> exists i, f_glo h f = Z.of_nat i) ->
          Forall2 calc_row (map (fun f => calc_str add rand h f ++ [nl]) l) (map (fun f => (f_glo h f, drawn h f)) l)).
        { induction l as [|f l IH]; intros H; [constructor|]. cbn [map]. constructor; [|apply IH; intros g I; apply H; right; auto].
          destruct (H f (or_introl eq_refl)) as (i & Ei). destruct (calc_str_words h f i Hn Ei) as [Ew _].
          exists (nat_str i), (map fmt (drawn h f)). split; [exact Ew|]. cbn [fst snd]. split; [rewrite Ei; apply py_int_nat_str|].
          clear - Hn. induction (drawn h f); cbn [map]; constructor; auto. apply Hn. }
        apply K. intros f I. apply In_nth_error in I as (i & I). exists i. apply Hg. exact I. }
    destruct (calc_main _ vars rows h C Nd) as (h' & E & Eh & A & _ & B).
    { intros r I. unfold rows in I. apply in_map_iff in I as (f & <- & I). cbn [fst]. apply In_nth_error in I as (i & I).
      rewrite (Hg i f I). assert (i < length (g_faces h)) by (apply nth_error_Some; congruence). lia. }
    exists h'. split; [exact E|]. split; [exact Eh|]. split; [|exact B].
    intros f I. apply In_nth_error in I as (i & I). rewrite (A i f (drawn h f) I).
    - unfold drawn. destruct (rand f) as [[r1 r2] r3]. reflexivity.
    - destruct (nth_error_split _ _ I) as (pre & post & Es & Ei). unfold rows. rewrite Es, map_app. cbn [map].
      exists (map (fun f => (f_glo h f, drawn h f)) pre), (map (fun f => (f_glo h f, drawn h f)) post).
      rewrite (Hg i f I). split; [reflexivity|]. intros K. rewrite map_map in K. apply in_map_iff in K as (g & Eg & K). cbn [fst] in Eg.
      apply In_nth_error in K as (j & K).
      assert (Ij : nth_error (g_faces h) (S i + j) = Some g).
      { rewrite Es, nth_error_app2 by lia. replace (S i + j - length pre) with (S j) by lia. exact K. }
      rewrite (Hg _ g Ij) in Eg. lia.
  Qed.
End Calc.
