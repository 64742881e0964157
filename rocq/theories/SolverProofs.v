(** Proofs about the texts of the files for the solver. *)

From Coq Require Import ZArith NArith Ascii String Bool Lia List Permutation.
From Verif Require Import Py PyLemmas Utils UtilsSpec UtilsProofs TextLemmas Heap HeapLemmas GridModel GridSpec DecompSpec DecompProofs DecompMain AssignProofs Mpi MpiSpec MpiProofs
  GridIO FileSpec StoreSpec StoreProofs LoadParse LoadPlace LoadMain LoadProps PlainProofs SamplesStore Driver DriverSpec MergeProofs StrategyProofs CycleSpec CycleProofs
  Redivide RedivideProofs Solver SolverSpec.
Import ListNotations.
Open Scope list_scope.
Open Scope nat_scope.

Section SolverProofs.
  Context {F : FloatOps}.

  (** [p] reads [x] from the lines [l] and leaves what follows. *)
  Definition reads {A} (p : reader A) (l : list str) (x : A) : Prop := forall r, p (l ++ r) = Some (x, r).

  Lemma reads_done : forall A (x : A), reads (done x) [] x.
  Proof. intros A x r. reflexivity. Qed.

  Lemma reads_next : forall A B (p : reader A) (k : A -> reader B) l l' x y, reads p l x -> reads (k x) l' y -> reads (next p k) (l ++ l') y.
  Proof. intros A B p k l l' x y H1 H2 r. unfold next. rewrite <- app_assoc, H1. apply H2. Qed.

  Lemma reads_line : forall A (g : str -> option A) l x, g l = Some x -> reads (line g) [l] x.
  Proof. intros A g l x H r. cbn. rewrite H. reflexivity. Qed.

  Lemma reads_heading : forall s, reads (heading s) [s ++ [nl]] tt.
  Proof. intros s. apply reads_line. destruct (str_dec (s ++ [nl]) (s ++ [nl])); [reflexivity|congruence]. Qed.

  Lemma reads_rows : forall A (g : str -> option A) ls xs, Forall2 (fun l x => g l = Some x) ls xs -> forall k, k = length xs -> reads (rows k g) ls xs.
  Proof.
    intros A g ls xs H. induction H as [|l x ls xs H1 H IH]; intros k ->; [apply reads_done|].
    cbn [rows length]. apply (reads_next _ _ _ _ [l] ls x); [apply reads_line; exact H1|].
    rewrite <- (app_nil_r ls). apply (reads_next _ _ _ _ ls [] xs); [apply IH; reflexivity|apply reads_done].
  Qed.

  Lemma behind_app : forall p s, behind p (p ++ s) = Some s.
  Proof. induction p as [|a p IH]; intros s; [reflexivity|]. cbn. rewrite Ascii.eqb_refl. apply IH. Qed.

  Lemma before_app : forall q s, before q (s ++ q) = Some s.
  Proof. intros q s. unfold before. rewrite rev_app_distr, behind_app. cbn. rewrite rev_involutive. reflexivity. Qed.

  Lemma all_of_map : forall A B (g : A -> option B) (f : B -> A) l, (forall x, In x l -> g (f x) = Some x) -> all_of g (map f l) = Some l.
  Proof.
    intros A B g f l. induction l as [|x l IH]; intros H; [reflexivity|]. cbn [map all_of].
    rewrite H by (left; reflexivity). rewrite IH by (intros; apply H; right; assumption). reflexivity.
  Qed.

  Lemma number_nat : forall n, number (nat_str n) = Some (Z.of_nat n).
  Proof. intros n. unfold number. rewrite (all_digits_N_str (N.of_nat n) : all_digits (nat_str n) = true), nat_str_val. reflexivity. Qed.

  Lemma Z_str_pos : forall k, (0 <= k)%Z -> Z_str k = nat_str (Z.to_nat k).
  Proof. intros k H. rewrite <- (Z2Nat.id k H) at 1. apply Z_str_nat. Qed.

  Lemma number_Z : forall k, (0 <= k)%Z -> number (Z_str k) = Some k.
  Proof. intros k H. rewrite Z_str_pos, number_nat, Z2Nat.id by exact H. reflexivity. Qed.

  Lemma word_Z : forall k, (0 <= k)%Z -> word (Z_str k).
  Proof. intros k H. rewrite Z_str_pos by exact H. apply word_digits. Qed.

  Lemma words_Z : forall ks w, (forall k, In k ks -> (0 <= k)%Z) -> In w (map Z_str ks) -> word w.
  Proof. intros ks w H Hw. apply in_map_iff in Hw as (k & <- & Hk). apply word_Z. auto. Qed.

  Lemma counted_nat : forall key n, counted key (key ++ nat_str n ++ [nl]) = Some n.
  Proof.
    intros key n. unfold counted. rewrite behind_app.
    pose proof (split_ws_join [nat_str n] [nl]) as E. cbn [join] in E. rewrite E; [|intros w [<-|[]]; apply word_digits|reflexivity].
    rewrite number_nat. cbn. rewrite Nat2Z.id. reflexivity.
  Qed.

  Lemma reals_vals : faithful_numbers -> forall vs k, length vs = k -> reals k (vals_str vs ++ [sp; nl]) = Some vs.
  Proof.
    intros Hn vs k <-. unfold reals, vals_str. rewrite split_ws_join; [|apply fmt_words; exact Hn|reflexivity].
    rewrite map_length, Nat.eqb_refl. apply all_of_map. intros v _. apply Hn.
  Qed.

  Lemma numbers_Z : forall ks k, length ks = k -> (forall x, In x ks -> (0 <= x)%Z) -> numbers k (zs_str ks ++ [nl]) = Some ks.
  Proof.
    intros ks k <- H. unfold numbers, zs_str. rewrite split_ws_join; [|intros w; apply words_Z; exact H|reflexivity].
    rewrite map_length, Nat.eqb_refl. apply all_of_map. intros x Hx. apply number_Z. auto.
  Qed.

  Definition in_range (n : nat) (ks : list Z) : Prop := forall k, In k ks -> (0 <= k < Z.of_nat n)%Z.

  Lemma below_Z : forall n k, (0 <= k < Z.of_nat n)%Z -> below n (Z_str k) = Some k.
  Proof.
    intros n k H. unfold below. rewrite number_Z by lia. destruct (Z.ltb_spec k (Z.of_nat n)); [reflexivity|lia].
  Qed.

  Lemma places_Z : forall ks k n, length ks = k -> in_range n ks -> places k n (zs_str ks ++ [nl]) = Some ks.
  Proof.
    intros ks k n <- H. unfold places, zs_str. rewrite split_ws_join; [|intros w; apply words_Z; intros x Hx; apply H; exact Hx|reflexivity].
    rewrite map_length, Nat.eqb_refl. apply all_of_map. intros x Hx. apply below_Z. auto.
  Qed.

  Lemma spaced : forall ws, (forall w, In w ws -> word w) -> split_ws (concat (map (fun w => w ++ [sp]) ws) ++ [nl]) = ws.
  Proof.
    induction ws as [|w ws IH]; intros H; [reflexivity|]. cbn [map concat]. rewrite <- !app_assoc. cbn [app].
    rewrite split_ws_word; [|apply H; left; reflexivity|reflexivity]. f_equal. apply IH. intros; apply H; right; assumption.
  Qed.

  Lemma spaced_chars : forall ws c, (forall w, In w ws -> word w) -> In c (concat (map (fun w => w ++ [sp]) ws)) -> c = sp \/ exists w, In w ws /\ In c w.
  Proof.
    intros ws c H Hc. apply in_concat in Hc as (l & Hl & Hc). apply in_map_iff in Hl as (w & <- & Hw).
    apply in_app_or in Hc as [Hc|[<-|[]]]; [right; exists w; auto|left; reflexivity].
  Qed.

  Lemma digit_ne : forall n c, In c (nat_str n) -> c <> "]"%char.
  Proof.
    intros n c Hc. pose proof (N_str_digits (N.of_nat n)) as G. rewrite forallb_forall in G. apply G in Hc.
    intros ->. vm_compute in Hc. discriminate Hc.
  Qed.

  Lemma border_Z : forall n b, in_range n (snd b) -> border n (border_str b) = Some b.
  Proof.
    intros n [k ks] H. cbn [snd] in H. unfold border, border_str. cbn [fst snd]. rewrite behind_app.
    assert (W : forall w, In w (map Z_str ks) -> word w) by (intros w; apply words_Z; intros x Hx; apply H; exact Hx).
    assert (E : concat (map (fun k => Z_str k ++ [sp]) ks) = concat (map (fun w => w ++ [sp]) (map Z_str ks))) by (rewrite map_map; reflexivity).
    rewrite E. change (lit "] ") with (["]"%char] ++ [sp]). rewrite <- !app_assoc. cbn [app].
    rewrite split_on_one.
    - rewrite number_nat. cbn [split_ws]. change (sp :: ?x) with ([sp] ++ x).
      assert (S1 : split_ws ([sp] ++ concat (map (fun w => w ++ [sp]) (map Z_str ks)) ++ [nl]) = map Z_str ks).
      { change (split_ws (concat (map (fun w => w ++ [sp]) (map Z_str ks)) ++ [nl]) = map Z_str ks). apply spaced. exact W. }
      rewrite S1, (all_of_map _ _ (below n) Z_str ks) by (intros x Hx; apply below_Z; auto). rewrite Nat2Z.id. reflexivity.
    - intros Hc. exact (digit_ne _ _ Hc eq_refl).
    - intros [K|Hc]; [discriminate K|]. apply in_app_or in Hc as [Hc|[K|[]]]; [|discriminate K].
      apply spaced_chars in Hc as [K|(w & Hw & Hc)]; [discriminate K| |exact W].
      apply in_map_iff in Hw as (x & <- & Hx). rewrite Z_str_pos in Hc by (apply H; exact Hx). exact (digit_ne _ _ Hc eq_refl).
  Qed.

  (** What the reader demands of the contents. *)
  Definition cry_ok (m : mpi_file) : Prop :=
    length (mf_coords m) = 3 /\ Forall (fun l => length l = mf_nodes m) (mf_coords m) /\
    length (mf_gloids m) = mf_faces m /\ (forall k, In k (mf_gloids m) -> (0 <= k)%Z) /\
    length (mf_data m) = 11 /\ Forall (fun l => length l = mf_faces m) (mf_data m) /\
    length (mf_fn m) = mf_faces m /\ Forall (fun l => length l = 3 /\ in_range (mf_nodes m) l) (mf_fn m) /\
    length (mf_fe m) = mf_faces m /\ Forall (fun l => length l = 3 /\ in_range (mf_edges m) l) (mf_fe m) /\
    length (mf_en m) = mf_edges m /\ Forall (fun l => length l = 2 /\ in_range (mf_nodes m) l) (mf_en m) /\
    mf_nborders m = length (mf_borders m) /\ Forall (fun b => in_range (mf_edges m) (snd b)) (mf_borders m) /\
    mf_cross m = list_sum (map (fun b => length (snd b)) (mf_borders m)).

  (** The lines of the text. *)
  Definition vars_head : str := lit "VARIABLES=""X"", ""Y"", ""Z"", ""GloId"", ""T"", ""Hw"", ""Hi"", ""HTC"", ""Beta"", ""MImp2"", ""Vd2"", ""TauX"", ""TauY"", ""TauZ"", ""RecoveryFactor""".
  Definition text_lines (m : mpi_file) : list str :=
    [lit "TITLE=""" ++ mf_title m ++ lit """" ++ [nl]] ++
    [vars_head ++ [nl]] ++
    [lit "MPI=" ++ nat_str (mf_mpi m) ++ [nl]] ++
    [lit "NODES=" ++ nat_str (mf_nodes m) ++ [nl]] ++
    [lit "EDGES=" ++ nat_str (mf_edges m) ++ [nl]] ++
    [lit "CROSS-EDGES=" ++ nat_str (mf_cross m) ++ [nl]] ++
    [lit "FACES=" ++ nat_str (mf_faces m) ++ [nl]] ++
    [lit "NODES COORDINATES:" ++ [nl]] ++
    map (fun l => vals_str l ++ [sp; nl]) (mf_coords m) ++
    [lit "FACES DATA:" ++ [nl]] ++
    [zs_str (mf_gloids m) ++ [nl]] ++
    map (fun l => vals_str l ++ [sp; nl]) (mf_data m) ++
    [lit "FACE-NODE CONNECTIVITY LIST:" ++ [nl]] ++
    map (fun l => zs_str l ++ [nl]) (mf_fn m) ++
    [lit "FACE-EDGE CONNECTIVITY LIST:" ++ [nl]] ++
    map (fun l => zs_str l ++ [nl]) (mf_fe m) ++
    [lit "EDGE-NODE CONNECTIVITY LIST:" ++ [nl]] ++
    map (fun l => zs_str l ++ [nl]) (mf_en m) ++
    [lit "MPI-BORDERS=" ++ nat_str (mf_nborders m) ++ [nl]] ++
    map border_str (mf_borders m).

  Lemma concat_one : forall (l : str) ls, concat ([l] ++ ls) = l ++ concat ls.
  Proof. reflexivity. Qed.

  Lemma vars_head_eq : lit "VARIABLES=" ++ join (lit ", ") (map (fun x => lit """" ++ x ++ lit """")
                           (map lit ["X"; "Y"; "Z"; "GloId"]%string ++ mpi_vars)) = vars_head.
  Proof. vm_compute. reflexivity. Qed.

  Lemma text_concat : forall m, mpi_text m = concat (text_lines m).
  Proof.
    intros m. unfold text_lines. rewrite ?concat_app, <- vars_head_eq. unfold mpi_text.
    cbn [concat]. rewrite ?app_nil_r, <- ?app_assoc. reflexivity.
  Qed.

  Lemma zs_plain : forall ks, (forall k, In k ks -> (0 <= k)%Z) -> plain (zs_str ks).
  Proof. intros ks H c Hc. unfold zs_str in Hc. apply (join_chars (map Z_str ks)); [intros w; apply words_Z; exact H|exact Hc]. Qed.

  Lemma border_plain : forall n b, in_range n (snd b) -> whole_line (border_str b).
  Proof.
    intros n [k ks] H. cbn [snd] in H. unfold border_str. cbn [fst snd]. rewrite !app_assoc. apply plain_line.
    apply plain_app; [apply plain_app; [apply plain_app; [|apply plain_nat]|]|].
    - intros c [<-|[]]; split; discriminate.
    - intros c [<-|[<-|[]]]; split; discriminate.
    - intros c Hc. apply in_concat in Hc as (l & Hl & Hc). apply in_map_iff in Hl as (x & <- & Hx).
      apply in_app_or in Hc as [Hc|[<-|[]]]; [|split; discriminate].
      destruct (word_plain _ c (word_Z x (proj1 (H x Hx))) Hc) as (A & B & _). auto.
  Qed.

  Lemma lines_text : faithful_numbers -> forall m, plain (mf_title m) -> cry_ok m -> file_lines (mpi_text m) = text_lines m.
  Proof.
    intros Hn m Ht (_ & _ & _ & G & _ & _ & _ & Ifn & _ & Ife & _ & Ien & _ & Ib & _).
    rewrite text_concat. apply file_lines_concat. intros l Hl. unfold text_lines in Hl.
    rewrite Forall_forall in Ifn, Ife, Ien, Ib.
    assert (K : forall key n, plain key -> whole_line (key ++ nat_str n ++ [nl])).
    { intros key n Hk. rewrite app_assoc. apply plain_line, plain_app; [exact Hk|apply plain_nat]. }
    assert (Hd : forall s, forallb (fun c => negb (Ascii.eqb c nl) && negb (Ascii.eqb c cr)) s = true -> plain s) by (intros s Hs c; apply lit_plain; exact Hs).
    assert (V : forall vs, whole_line (vals_str vs ++ [sp; nl])) by (apply vals_line; exact Hn).
    repeat (apply in_app_or in Hl as [Hl|Hl]);
      try (destruct Hl as [<-|[]]); try (apply K, Hd; reflexivity); try (apply plain_line, Hd; vm_compute; reflexivity);
      try (apply in_map_iff in Hl as (x & <- & Hx); apply V).
    - rewrite app_assoc, (app_assoc _ (lit """")). apply plain_line, plain_app; [apply plain_app; [apply Hd; reflexivity|exact Ht]|apply Hd; reflexivity].
    - apply plain_line, zs_plain. exact G.
    - apply in_map_iff in Hl as (x & <- & Hx). apply plain_line, zs_plain. intros k Hk. apply (proj2 (Ifn x Hx)). exact Hk.
    - apply in_map_iff in Hl as (x & <- & Hx). apply plain_line, zs_plain. intros k Hk. apply (proj2 (Ife x Hx)). exact Hk.
    - apply in_map_iff in Hl as (x & <- & Hx). apply plain_line, zs_plain. intros k Hk. apply (proj2 (Ien x Hx)). exact Hk.
    - apply in_map_iff in Hl as (x & <- & Hx). apply (border_plain (mf_edges m)). apply Ib. exact Hx.
  Qed.

  Lemma f2_map : forall A B (g : B -> option A) (f : A -> B) xs, (forall x, In x xs -> g (f x) = Some x) -> Forall2 (fun l x => g l = Some x) (map f xs) xs.
  Proof.
    intros A B g f xs. induction xs as [|x xs IH]; intros H; [constructor|]. cbn. constructor; [apply H; left; reflexivity|].
    apply IH. intros; apply H; right; assumption.
  Qed.

  Lemma title_read : forall t, title (lit "TITLE=""" ++ t ++ lit """" ++ [nl]) = Some t.
  Proof. intros t. unfold title. rewrite behind_app. apply before_app. Qed.

  Lemma reads_total : forall x bs, x = list_sum (map (fun b => length (snd b)) bs) -> reads (total x bs) [] tt.
  Proof. intros x bs -> r. unfold total. rewrite Nat.eqb_refl. reflexivity. Qed.

  (** The reader understands the text. *)
  Theorem read_text : faithful_numbers -> forall m, plain (mf_title m) -> cry_ok m -> read_cry (mpi_text m) = Some m.
  Proof.
    intros Hn m Ht Ok. unfold read_cry. rewrite (lines_text Hn m Ht Ok).
    destruct Ok as (Lc & Hc & Lg & G & Ld & Hd & Lfn & Ifn & Lfe & Ife & Len & Ien & Lb & Ib & X).
    rewrite Forall_forall in Hc, Hd, Ifn, Ife, Ien, Ib.
    assert (R : reads cry_reader (text_lines m) m).
    { unfold cry_reader, text_lines.
      eapply reads_next; [apply reads_line, title_read|].
      eapply reads_next; [apply reads_heading|].
      do 5 (eapply reads_next; [apply reads_line, counted_nat|]).
      eapply reads_next; [apply reads_heading|].
      eapply reads_next; [apply reads_rows; [apply f2_map; intros x Hx; apply reals_vals; [exact Hn|apply Hc; exact Hx]|symmetry; exact Lc]|].
      eapply reads_next; [apply reads_heading|].
      eapply reads_next; [apply reads_line, numbers_Z; [exact Lg|exact G]|].
      eapply reads_next; [apply reads_rows; [apply f2_map; intros x Hx; apply reals_vals; [exact Hn|apply Hd; exact Hx]|symmetry; exact Ld]|].
      eapply reads_next; [apply reads_heading|].
      eapply reads_next; [apply reads_rows; [apply f2_map; intros x Hx; apply places_Z; apply Ifn; exact Hx|symmetry; exact Lfn]|].
      eapply reads_next; [apply reads_heading|].
      eapply reads_next; [apply reads_rows; [apply f2_map; intros x Hx; apply places_Z; apply Ife; exact Hx|symmetry; exact Lfe]|].
      eapply reads_next; [apply reads_heading|].
      eapply reads_next; [apply reads_rows; [apply f2_map; intros x Hx; apply places_Z; apply Ien; exact Hx|symmetry; exact Len]|].
      eapply reads_next; [apply reads_line, counted_nat|].
      rewrite <- (app_nil_r (map border_str (mf_borders m))).
      eapply reads_next; [apply reads_rows; [apply f2_map; intros x Hx; apply border_Z; apply Ib; exact Hx|exact Lb]|].
      change (@nil str) with (@nil str ++ []).
      eapply reads_next; [apply reads_total; exact X|]. destruct m. apply reads_done. }
    specialize (R []). rewrite app_nil_r in R. rewrite R. reflexivity.
  Qed.

  Lemma position_len : forall A (l xs : list A) ks, positions l xs ks -> length ks = length xs /\ in_range (length l) ks.
  Proof.
    intros A l xs ks H. split; [symmetry; exact (Forall2_len _ _ _ _ _ H)|]. intros k Hk.
    unfold positions in H. induction H as [|x y xs ks [H1 H2] H IH]; [destruct Hk|]. destruct Hk as [<-|Hk]; [|auto].
    assert (Z.to_nat y < length l) by (apply nth_error_Some; congruence). lia.
  Qed.

  Lemma rows_len : forall A B (l : list A) (row : B -> list A) bs kss c, position_rows l row bs kss -> (forall b, In b bs -> length (row b) = c) ->
    length kss = length bs /\ Forall (fun ks => length ks = c /\ in_range (length l) ks) kss.
  Proof.
    intros A B l row bs kss c H Hc. split; [symmetry; exact (Forall2_len _ _ _ _ _ H)|].
    unfold position_rows in H. induction H as [|b ks bs kss H1 H IH]; [constructor|]. constructor; [|apply IH; intros; apply Hc; right; assumption].
    apply position_len in H1 as [H1 H2]. split; [|exact H2]. rewrite H1. apply Hc. left. reflexivity.
  Qed.

  (** The contents of the files satisfy what the reader demands. *)
  Theorem files_ok : forall h, grid_ok h -> zone_lists_ok h -> numbered h ->
    exists ms, store_mpi_files h = Ok ms /\ length ms = length (g_zones h) /\
      forall i z m, nth_error (g_zones h) i = Some z -> nth_error ms i = Some m -> mf_title m = z_name h z /\ mf_mpi m = i /\ cry_ok m.
  Proof.
    intros h Hg Hl Hn. destruct (mpi_cover_main h Hg Hl Hn) as (ms & E & L & P & H). exists ms. split; [exact E|]. split; [exact L|].
    intros i z m Hz Hm. destruct (H i z m Hz Hm) as (H1 & H2 & H3 & H4 & H5 & H6 & H7 & H8 & H9 & H10 & H11 & H12 & H13).
    split; [exact H1|]. split; [exact H2|]. pose proof Hg as [T Zo]. pose proof (nth_error_In _ _ Hz) as Iz.
    assert (Ff : forall f, In f (z_faces h z) -> In f (g_faces h)) by (intros f Hf; apply (zo_faces h Zo z f Iz) in Hf; tauto).
    assert (Ee : forall e, In e (z_edges h z) -> In e (g_edges h)).
    { intros e He. apply (DecompProofs.sublist_In _ _ _ _ e (proj2 (Hl z Iz))) in He. tauto. }
    apply (rows_len _ _ _ _ _ _ 3) in H9 as [H9 H9']; [|intros f Hf; apply (t_face_nodes h T f (Ff f Hf))].
    apply (rows_len _ _ _ _ _ _ 3) in H10 as [H10 H10']; [|intros f Hf; apply (t_face_edges h T f (Ff f Hf))].
    apply (rows_len _ _ _ _ _ _ 2) in H11 as [H11 H11']; [|intros e He; apply (t_edge_nodes h T e (Ee e He))].
    unfold cry_ok. rewrite H3, H4, H5.
    split; [rewrite H6; reflexivity|]. split; [rewrite H6; repeat constructor; apply map_length|].
    split; [rewrite H7; apply map_length|]. split.
    { intros k Hk. assert (K : In k (concat (map mf_gloids ms))) by (apply in_concat; exists (mf_gloids m); split; [apply in_map; exact (nth_error_In _ _ Hm)|exact Hk]).
      apply (Permutation_in _ P) in K. apply in_map_iff in K as (x & <- & _). lia. }
    split; [rewrite H8; reflexivity|]. split; [rewrite H8; apply Forall_forall; intros l Hl'; apply in_map_iff in Hl' as (v & <- & _); apply map_length|].
    split; [exact H9|]. split; [exact H9'|]. split; [exact H10|]. split; [exact H10'|]. split; [exact H11|]. split; [exact H11'|]. split; [exact H13|].
    split; [|exact H12]. apply Forall_forall. intros [j ks] Hb k Hk.
    destruct (mpi_listed_main h ms i z m Hg Hl Hn E Hz Hm) as [_ K]. destruct (K j ks Hb) as (_ & _ & y & _ & K' & _).
    destruct (K' k Hk) as (e & A & B & _). assert (Z.to_nat k < length (z_edges h z)) by (apply nth_error_Some; congruence). lia.
  Qed.

  Lemma name_ok : forall base ts sf i, file_name base ts sf i (mpi_name base ts sf i).
  Proof.
    intros base ts sf i. exists (pad0 5 (nat_str i)). split; [reflexivity|].
    split; [apply pad0_all_digits; apply (all_digits_N_str (N.of_nat i))|]. split; [apply pad0_val|]. split.
    - unfold pad0. rewrite app_length, repeat_length. lia.
    - intros H. apply pad0_length. apply nat_str_length_le; [|lia]. change (10 ^ N.of_nat 5)%N with 100000%N. lia.
  Qed.

  Lemma name_inj : forall base ts sf i j nm, file_name base ts sf i nm -> file_name base ts sf j nm -> i = j.
  Proof.
    intros base ts sf i j nm (w & E & _ & V & _) (w' & E' & _ & V' & _). rewrite E in E'. apply app_inv_head, app_inv_head, app_inv_tail in E'. subst w'. lia.
  Qed.

  (** The files written from a decomposed grid. *)
  Theorem store_read : forall base ts sf h, faithful_numbers -> grid_ok h -> zone_lists_ok h -> numbered h -> (forall z, In z (g_zones h) -> plain_name (z_name h z)) ->
    exists files ms, store_mpi base ts sf h = Ok files /\ store_mpi_files h = Ok ms /\ length files = length (g_zones h) /\ NoDup (map fst files) /\
      forall i nm t, nth_error files i = Some (nm, t) -> file_name base ts sf i nm /\
        exists m, read_cry t = Some m /\ nth_error ms i = Some m.
  Proof.
    intros base ts sf h Hn Hg Hl Hu Hp. destruct (files_ok h Hg Hl Hu) as (ms & E & L & H).
    exists (map (fun m => (mpi_name base ts sf (mf_mpi m), mpi_text m)) ms), ms.
    assert (Q : forall i nm t, nth_error (map (fun m => (mpi_name base ts sf (mf_mpi m), mpi_text m)) ms) i = Some (nm, t) ->
      file_name base ts sf i nm /\ exists m, read_cry t = Some m /\ nth_error ms i = Some m).
    { intros i nm t Hi. rewrite nth_error_map in Hi. destruct (nth_error ms i) as [m|] eqn:Em; [|discriminate Hi].
      cbn in Hi. injection Hi as <- <-.
      assert (Li : i < length (g_zones h)) by (rewrite <- L; apply nth_error_Some; congruence).
      destruct (nth_error (g_zones h) i) as [z|] eqn:Ez; [|apply nth_error_None in Ez; lia].
      destruct (H i z m Ez Em) as (Et & Ei & Ok'). split; [rewrite Ei; apply name_ok|]. exists m. split; [|reflexivity].
      apply (read_text Hn m); [|exact Ok']. rewrite Et. apply plain_of_name. apply Hp. exact (nth_error_In _ _ Ez). }
    split; [unfold store_mpi; rewrite E; reflexivity|]. split; [exact E|]. split; [rewrite map_length; exact L|]. split; [|exact Q].
    revert Q. generalize (map (fun m => (mpi_name base ts sf (mf_mpi m), mpi_text m)) ms). intros fs Q.
    apply NoDup_nth_error. intros i j Hi Hij. rewrite map_length in Hi. apply nth_error_Some in Hi.
    rewrite !nth_error_map in Hij. destruct (nth_error fs i) as [[nm t]|] eqn:Ei; [|congruence].
    cbn in Hij. destruct (nth_error fs j) as [[nm' t']|] eqn:Ej; [|discriminate Hij]. cbn in Hij. injection Hij as <-.
    exact (name_inj _ _ _ _ _ _ (proj1 (Q i nm t Ei)) (proj1 (Q j nm t' Ej))).
  Qed.
End SolverProofs.
