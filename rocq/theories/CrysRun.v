(** Proofs about a run of crys.py: the exchanges change nothing, what the root collects, and
    what is stored. *)

From Coq Require Import ZArith NArith Reals Ascii String Bool Lia Arith List FunctionalExtensionality.
From Verif Require Import Py PyLemmas Heap HeapLemmas GridModel GridSpec Zam ZamSpec ZamProofs Mpi MpiSpec MpiProofs GridIO FileSpec StoreSpec
  LoadParse LoadMain RoundTrip MergeProofs PlainProofs SamplesStore DecompSpec AssignProofs PartialZones SimpleDecomp FarhatProofs DecompMain
  Driver DriverSpec DriverProofs StrategyProofs Exchange ExchangeSpec ExchangeProofs Gather GatherProofs DecompProofs Atomic AtomicMain Geom Programs ProgramsSpec
  ProgramsProofs Crys CrysSpec CrysProofs.
From Verif Require Remesh RemeshSpec RemeshProofs.
Import ListNotations.
Open Scope list_scope.
Open Scope nat_scope.

Section Keys.
  Context {F : FloatOps}.

  Lemma dset_keys_same : forall (d : dict str val) k v, In k (keys d) -> keys (dset str_dec d k v) = keys d.
  Proof. intros d k v H. rewrite PyLemmas.keys_dset. destruct (in_dec str_dec k (keys d)); [reflexivity|contradiction]. Qed.

  Lemma has_key : forall (d : dict str val) k v, dget str_dec d k = Some v -> In k (keys d).
  Proof. intros d k v H. destruct (in_dec str_dec k (keys d)) as [|N]; [auto|]. apply (dget_None str_dec) in N. rewrite N in H. discriminate H. Qed.

  Lemma data_set_keys : forall (d : fdata) f k v g, In k (keys (d f)) -> keys (data_set d f k v g) = keys (d g).
  Proof.
    intros d f k v g H. unfold data_set. destruct (Nat.eq_dec g f) as [->|N]; [rewrite ExchangeProofs.upd_eq|rewrite ExchangeProofs.upd_neq by exact N; reflexivity].
    apply dset_keys_same. exact H.
  Qed.

  Section Ex.
    Variables (h : heap) (bs : nat -> list (nat * list Z)) (names : list str) (d0 : nat -> fdata).
    Hypothesis Hready : ready h.
    Hypothesis Hkey : forall r f k, In f (g_faces h) -> In k names -> In k (keys (d0 r f)).

    Lemma ghost_in : forall z e f, In z (g_zones h) -> get_ghost_face h z e = Ok f -> In f (g_faces h).
    Proof.
      intros z e f Hz E. destruct Hready as ([T Zo] & Zl & _). unfold get_ghost_face in E.
      destruct (py_get (z_edges h z) e) as [ed|] eqn:Eg; [|discriminate E]. cbn [rbind] in E.
      apply py_get_In in Eg. assert (He : In ed (g_edges h)).
      { destruct (Zl z Hz) as [_ S2]. apply (proj1 (DecompProofs.sublist_In _ _ _ _ _ S2)) in Eg. apply Eg. }
      pose proof (t_edge_faces h T ed He) as (_ & _ & Inc).
      destruct (e_faces h ed) as [|f1 [|f2 [|]]]; try discriminate E.
      destruct (attr_is _ _); [injection E as <-; apply Inc; right; left; reflexivity|].
      destruct (attr_is _ _); [injection E as <-; apply Inc; left; reflexivity|discriminate E].
    Qed.

    Lemma get_row_keys : forall r z name row ids j d d', In z (g_zones h) -> In name names ->
      (forall f, keys (d f) = keys (d0 r f)) -> get_row h z name row j ids d = Ok d' -> forall f, keys (d' f) = keys (d0 r f).
    Proof.
      intros r z name row ids. induction ids as [|e ids IH]; intros j d d' Hz Hm Hd E; cbn [get_row] in E.
      - injection E as <-. exact Hd.
      - destruct (get_ghost_face h z e) as [f|] eqn:Eg; [|discriminate E]. cbn [rbind] in E.
        destruct (py_get row (Z.of_nat j)) as [v|]; [|discriminate E]. cbn [rbind] in E.
        apply (IH (Datatypes.S j) (data_set d f name v) d' Hz Hm); [|exact E]. intros g. rewrite data_set_keys; [apply Hd|].
        rewrite Hd. apply Hkey; [|exact Hm]. exact (ghost_in _ _ _ Hz Eg).
    Qed.

    Lemma get_rows_keys : forall r z name rb l i d d', In z (g_zones h) -> In name names ->
      (forall f, keys (d f) = keys (d0 r f)) -> get_rows h z name rb i l d = Ok d' -> forall f, keys (d' f) = keys (d0 r f).
    Proof.
      intros r z name rb l. induction l as [|[k ids] l IH]; intros i d d' Hz Hm Hd E; cbn [get_rows] in E.
      - injection E as <-. exact Hd.
      - destruct (py_get rb (Z.of_nat i)) as [row|]; [|discriminate E]. cbn [rbind] in E.
        destruct (get_row h z name row 0 ids d) as [d1|] eqn:E1; [|discriminate E]. cbn [rbind] in E.
        apply (IH (Datatypes.S i) d1 d' Hz Hm); [|exact E]. exact (get_row_keys _ _ _ _ _ _ _ _ Hz Hm Hd E1).
    Qed.

    Definition keyed (s : sysst) : Prop := forall r,
      (forall f, keys (r_data (s_rank s r) f) = keys (d0 r f)) /\
      (forall name, In (OGet name) (r_prog (s_rank s r)) -> In name names).

    Lemma keyed_upd : forall s x r p fl w, keyed s ->
      (forall f, keys (r_data x f) = keys (d0 r f)) -> (forall name, In (OGet name) (r_prog x) -> In name names) ->
      keyed (mkSys (upd (s_rank s) r x) p fl w).
    Proof.
      intros s x r p fl w K A B q. cbn [s_rank]. destruct (Nat.eq_dec q r) as [->|N].
      - rewrite ExchangeProofs.upd_eq. auto.
      - rewrite ExchangeProofs.upd_neq by exact N. apply K.
    Qed.

    Lemma keyed_step : forall a s s', keyed s -> do_act h bs a s = Some s' -> keyed s'.
    Proof.
      intros a s s' K E. destruct a as [r|src dst|src dst]; cbn [do_act] in E.
      - destruct (nth_error (g_zones h) r) as [z|] eqn:Ez; [|discriminate E]. apply nth_error_In in Ez.
        destruct (K r) as [K1 K2]. unfold run_op in E. destruct (r_prog (s_rank s r)) as [|[name| | | |name] p] eqn:Ep.
        + discriminate E.
        + injection E as <-. destruct (put_rows _ _ _ _ _ _ _).
          * apply keyed_upd; [exact K|exact K1|]. intros n Hn. apply K2. right. exact Hn.
          * apply keyed_upd; [exact K|exact K1|]. intros n [].
        + injection E as <-. apply keyed_upd; [exact K|exact K1|]. intros n Hn. apply K2. right. exact Hn.
        + injection E as <-. apply keyed_upd; [exact K|exact K1|]. intros n Hn. apply K2. right. exact Hn.
        + destruct (no_want _ _); [|discriminate E]. injection E as <-. apply keyed_upd; [exact K|exact K1|]. intros n Hn. apply K2. right. exact Hn.
        + injection E as <-. destruct (get_rows h z name (r_recv (s_rank s r)) 0 (bs r) (r_data (s_rank s r))) as [d|] eqn:Eg.
          * apply keyed_upd; [exact K| |].
            -- cbn [r_data]. exact (get_rows_keys _ _ _ _ _ _ _ _ Ez (K2 name (or_introl eq_refl)) K1 Eg).
            -- intros n Hn. apply K2. right. exact Hn.
          * apply keyed_upd; [exact K|exact K1|]. intros n [].
      - destruct (s_pend s src dst) as [|[i c] q]; [discriminate E|]. destruct (nth_error _ i); [|discriminate E]. injection E as <-. exact K.
      - destruct (s_fly s src dst) as [|m fl]; [discriminate E|]. destruct (s_want s dst src) as [|[i c] w]; [discriminate E|].
        cbv zeta in E. destruct (nth_error _ i) as [row|]; [|discriminate E]. injection E as <-. destruct (K dst) as [K1 K2].
        destruct (length m <=? c); apply keyed_upd; try exact K; try exact K1; [exact K2|intros n []].
    Qed.

    Lemma keyed_reached : forall ok sb rb s, reached ok h bs (start names d0 sb rb) s -> keyed s.
    Proof.
      intros ok sb rb s H. induction H as [|s a s' _ IH _ E].
      - intros r. cbn [start s_rank r_data r_prog]. split; [reflexivity|]. intros name Hn. apply in_concat in Hn as (l & Hl & Hn).
        apply in_map_iff in Hl as (nm & <- & Hl). cbn in Hn. destruct Hn as [Hn|[Hn|[Hn|[Hn|[Hn|[]]]]]]; try discriminate Hn.
        injection Hn as <-. exact Hl.
      - exact (keyed_step _ _ _ IH E).
    Qed.
  End Ex.

  (** An exchange of data that is the same on all ranks changes nothing. *)
  Lemma exchange_idle : forall h bs names sb rb s, ready h -> borders_of h bs -> buffers_ok h bs sb -> buffers_ok h bs rb ->
    (forall f k, In f (g_faces h) -> In k names -> exists v, dget str_dec (f_data h f) k = Some v) ->
    reached before_reuse h bs (start names (fun _ => f_data h) sb rb) s -> finished h s ->
    forall r, r < length (g_zones h) ->
      (forall f, keys (r_data (s_rank s r) f) = keys (f_data h f)) /\
      (forall f k, dget str_dec (r_data (s_rank s r) f) k = dget str_dec (f_data h f) k).
  Proof.
    intros h bs names sb rb s R B S1 S2 Hh Hr Hf r Hlt. split.
    - refine (proj1 (keyed_reached h bs names (fun _ => f_data h) R _ _ _ _ _ Hr r)).
      intros _ f k Hfc Hk. destruct (Hh f k Hfc Hk) as (v & E). exact (has_key _ _ _ E).
    - destruct (exchange_main h bs names (fun _ => f_data h) R B sb rb S1 S2 s Hr) as (_ & _ & _ & E). specialize (E Hf) as [E _].
      destruct (nth_error (g_zones h) r) as [z|] eqn:Ez; [|apply nth_error_None in Ez; lia].
      destruct (E r z Ez) as (E1 & E2 & E3 & E4). intros f k.
      destruct (in_dec str_dec k names) as [Hk|Hk]; [|apply E4; exact Hk].
      destruct (existsb (fun e => match e_faces h e with
        | [a; b] => (Nat.eqb a f && match f_zone h b with Some y => Nat.eqb y z | None => false end && negb (match f_zone h f with Some y => Nat.eqb y z | None => false end)) ||
                    (Nat.eqb b f && match f_zone h a with Some y => Nat.eqb y z | None => false end && negb (match f_zone h f with Some y => Nat.eqb y z | None => false end))
        | _ => false end) (g_edges h)) eqn:Ex.
      + apply existsb_exists in Ex as (e & He & Ex).
        assert (G : ghost h z f).
        { destruct (e_faces h e) as [|a [|b [|]]] eqn:Ee; try discriminate Ex.
          assert (Nz : match f_zone h f with Some y => Nat.eqb y z | None => false end = false -> f_zone h f <> Some z).
          { intros K K'. rewrite K', Nat.eqb_refl in K. discriminate K. }
          assert (Yz : forall g, match f_zone h g with Some y => Nat.eqb y z | None => false end = true -> f_zone h g = Some z).
          { intros g K. destruct (f_zone h g) as [y|]; [apply Nat.eqb_eq in K; congruence|discriminate K]. }
          apply orb_true_iff in Ex as [Ex|Ex]; apply andb_true_iff in Ex as [Ex E5]; apply andb_true_iff in Ex as [E6 E7];
            apply Nat.eqb_eq in E6; apply negb_true_iff in E5; subst.
          - exists e, b. split; [exact He|]. split; [left; exact Ee|]. split; [apply Yz; exact E7|apply Nz; exact E5].
          - exists e, a. split; [exact He|]. split; [right; exact Ee|]. split; [apply Yz; exact E7|apply Nz; exact E5]. }
        destruct R as ([T Zo] & _). assert (Hfc : In f (g_faces h)).
        { destruct G as (e' & g & He' & Eg & _). apply (t_edge_faces h T e' He'). destruct Eg as [-> | ->]; [left|right; left]; reflexivity. }
        destruct (zo_cover h Zo f Hfc) as (y & Hy & Zy). apply In_nth_error in Hy as (j & Hj).
        rewrite (E2 f j k G (ex_intro _ y (conj Hj Zy)) Hk). destruct (Hh f k Hfc Hk) as (v & Ev). unfold data_get. rewrite Ev. reflexivity.
      + rewrite E3; [reflexivity|]. intros (e & g & He & Eg & Zg & Zf).
        assert (K : existsb (fun e => match e_faces h e with
        | [a; b] => (Nat.eqb a f && match f_zone h b with Some y => Nat.eqb y z | None => false end && negb (match f_zone h f with Some y => Nat.eqb y z | None => false end)) ||
                    (Nat.eqb b f && match f_zone h a with Some y => Nat.eqb y z | None => false end && negb (match f_zone h f with Some y => Nat.eqb y z | None => false end))
        | _ => false end) (g_edges h) = true).
        { apply existsb_exists. exists e. split; [exact He|].
          assert (Nz : match f_zone h f with Some y => Nat.eqb y z | None => false end = false).
          { destruct (f_zone h f) as [y|]; [|reflexivity]. apply Nat.eqb_neq. intros ->. apply Zf. reflexivity. }
          rewrite Nz. destruct Eg as [-> | ->]; rewrite Nat.eqb_refl, Zg, Nat.eqb_refl; cbn; [reflexivity|]. rewrite orb_true_r. reflexivity. }
        rewrite K in Ex. discriminate Ex.
  Qed.

  Lemma write_keys : forall fs vs d, (forall f, In f fs -> In hi_name (keys (d f))) -> forall f, keys (write_his fs vs d f) = keys (d f).
  Proof.
    induction fs as [|g fs IH]; intros [|v vs] d H f; cbn [write_his]; try reflexivity.
    rewrite IH; [apply data_set_keys; apply H; left; reflexivity|]. intros x Hx. rewrite data_set_keys; [apply H; right; exact Hx|apply H; left; reflexivity].
  Qed.

  Lemma spread_keys : forall h counts buf zs i d d', (forall z f, In z zs -> In f (z_faces h z) -> In hi_name (keys (d f))) ->
    spread h i zs counts buf d = Ok d' -> forall f, keys (d' f) = keys (d f).
  Proof.
    intros h counts buf. induction zs as [|z zs IH]; intros i d d' H E f; cbn [spread] in E.
    - injection E as <-. reflexivity.
    - destruct (py_get counts (Z.of_nat i)) as [c|]; [|discriminate E]. cbn [rbind] in E.
      assert (Hw : forall g, keys (write_his (z_faces h z) (py_slice buf (Z.of_nat (i * c)) (Z.of_nat (Datatypes.S i * c))) d g) = keys (d g)).
      { apply write_keys. intros g Hg. exact (H z g (or_introl eq_refl) Hg). }
      rewrite (IH _ _ _ (fun y g Hy Hg => eq_ind_r (fun l => In hi_name l) (H y g (or_intror Hy) Hg) (Hw g)) E f). apply Hw.
  Qed.
End Keys.
