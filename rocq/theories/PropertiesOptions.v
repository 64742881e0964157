(** Property theorems about options read from json files: C91 (split), C92 (remesher).

    Model: Options.v, Driver.v, Programs.v.  Specification vocabulary: OptionsSpec.v. *)

From Coq Require Import ZArith Reals Ascii String Bool Lia List.
From Verif Require Import Py PyLemmas Heap HeapLemmas GridModel GridSpec DecompSpec GridIO FileSpec StoreSpec LoadProps
  Samples SamplesIO SamplesStore Driver DriverSpec DriverProofs StrategyProofs SamplesDriver Geom Remesh RemeshMore Programs
  Options OptionsSpec OptionsProofs OptionsWrong OptionsCases.
Import ListNotations.
Open Scope list_scope.
Open Scope nat_scope.

(* ================================================================== *)
(** C91.  The program split takes the strategy from the command line, else from the json file,
    else one domain; the fixed zones are the zones of the elements of the heating system, and the
    recovery factor is that of the json file, else 1.0. *)
Theorem C91_options : forall {F : FloatOps} one of_int grid sf strat j s names rf t h,
  chosen strat j s -> heated j names -> factor one of_int j rf ->
  split_program one of_int grid sf strat (Some (Some j)) t h = split grid sf s names rf t h.
Proof. exact @program_is_split. Qed.
Print Assumptions C91_options.

Theorem C91_no_json : forall {F : FloatOps} one of_int grid sf strat t h,
  split_program one of_int grid sf strat None t h = split grid sf (match strat with Some s => s | None => lit "n1" end) [] one t h /\
  split_program one of_int grid sf strat (Some None) t h = (Raise EException, h).
Proof. intros. split; [apply program_plain|apply program_no_file]. Qed.
Print Assumptions C91_no_json.

(** C91.  So every heated zone is a zone of the result, with the same faces. *)
Theorem C91_heated_stay : forall {F : FloatOps} one of_int text strat j s k names rf t h hl evs,
  faithful_numbers -> file_form [] (file_lines text) evs -> no_degenerate (zones_of evs) ->
  faces_in (zones_of evs) <> 0 -> load true text (new_grid h) = (Ok tt, hl) ->
  chosen strat j s -> asks s "n"%char k -> (Z.of_nat (length names) < k)%Z ->
  heated j names -> factor one of_int j rf ->
  (forall nm, In nm names -> In nm (map (z_name hl) (g_zones hl))) -> t <> ToNothing ->
  exists out h', split_program one of_int (Some text) (lit ".dat") strat (Some (Some j)) t h = (Ok out, h') /\
    forall nm z, In nm names -> In z (g_zones hl) -> z_name hl z = nm -> 
      exists z', In z' (g_zones h') /\ z_name h' z' = nm /\ z_faces h' z' = z_faces hl z.
Proof.
  intros F one of_int text strat j s k names rf t h hl evs Hn Hf Hd H0 Hl Hs Ha Hk Hh Hr Hi Ht.
  destruct (split_exact_main text s names k rf t h hl evs Hn Hf Hd H0 Hl Ha Hk Hi Ht) as (out & h' & K & T & E & _ & _ & Eg & Kn & Kf & _).
  exists out, h'. split; [rewrite (program_is_split one of_int _ _ strat j s names rf t h Hs Hh Hr); exact E|].
  intros nm z Inm Iz Ez. assert (IK : In z K) by (apply (DecompProofs.sublist_In _ _ _ _ _ Kn); split; [exact Iz|rewrite Ez; exact Inm]).
  exists z. split; [rewrite Eg; apply in_or_app; left; exact IK|]. destruct (Kf z IK) as [A B]. rewrite B. split; [exact Ez|exact A].
Qed.
Print Assumptions C91_heated_stay.

Example C91_example : heated (heat [element "B"]) [lit "B"] /\ chosen None (heat [element "B"]) (lit "n2") /\ asks (lit "n2") "n"%char 2 /\
  factor 1%Z (fun z => z) (heat [element "B"]) 1%Z /\ load true two_zones (new_grid empty_heap) = (Ok tt, plate) /\
  (forall nm, In nm [lit "B"] -> In nm (map (z_name plate) (g_zones plate))).
Proof.
  split.
  { left. destruct (heat_member [element "B"]) as (hs & A & B). exists hs, [element "B"]. split; [exact A|]. split; [exact B|].
    constructor; [apply element_zone|constructor]. }
  split; [apply heat_chosen|]. split; [exists (lit "2"); split; reflexivity|]. split; [apply heat_factor|]. split; [exact plate_run|].
  rewrite plate_names. intros nm [<-|[]]. right. left. reflexivity.
Qed.

(** C91.  If one element of the heating system has no zone, then no zone is fixed, and no
    error is reported: "every zone named by an element of the heating system is a zone of the
    result" is false. *)
Theorem C91_element_without_zone : forall {F : FloatOps} one of_int grid sf strat j hs els s rf t h,
  chosen strat j s -> factor one of_int j rf -> member j "heating_system" hs -> member hs "elements" (JList els) ->
  Forall (fun e => (exists v, member e "zone" v) \/ lacks e "zone") els -> (exists e, In e els /\ lacks e "zone") ->
  split_program one of_int grid sf strat (Some (Some j)) t h = split grid sf s [] rf t h.
Proof. exact @element_without_zone. Qed.
Print Assumptions C91_element_without_zone.

(** C91.  If the elements of the heating system are not a list, the program stops with
    TypeError, unless they are an empty object or an empty string, which count as no elements. *)
Theorem C91_elements_no_list : forall {F : FloatOps} one of_int grid sf strat j hs els s t h,
  chosen strat j s -> member j "heating_system" hs -> member hs "elements" els ->
  (forall l, els <> JList l) -> els <> JObj [] -> els <> JStr [] ->
  split_program one of_int grid sf strat (Some (Some j)) t h = (Raise ETypeError, h).
Proof. exact @elements_no_list. Qed.
Print Assumptions C91_elements_no_list.
Theorem C91_elements_empty : forall {F : FloatOps} one of_int grid sf strat j hs els s rf t h,
  chosen strat j s -> factor one of_int j rf -> member j "heating_system" hs -> member hs "elements" els ->
  els = JObj [] \/ els = JStr [] \/ els = JList [] ->
  split_program one of_int grid sf strat (Some (Some j)) t h = split grid sf s [] rf t h.
Proof. exact @elements_empty. Qed.
Print Assumptions C91_elements_empty.

(** C91.  If the zone of some element is not a string, the program fails and nothing is
    written. *)
Theorem C91_zone_no_name : forall {F : FloatOps} one of_int grid sf strat j hs els vs v s t h,
  chosen strat j s -> member j "heating_system" hs -> member hs "elements" (JList els) ->
  Forall2 (fun e v => member e "zone" v) els vs -> In v vs -> (forall nm, v <> JStr nm) ->
  exists e, split_program one of_int grid sf strat (Some (Some j)) t h = (Raise e, h).
Proof. exact @zone_no_name. Qed.
Print Assumptions C91_zone_no_name.

(** The elements as an object with a name for every element: a likely mistake. *)
Example C91_elements_example : exists hs els, member (JObj [(lit "heating_system", JObj [(lit "elements", JObj [(lit "first", element "A")])])]) "heating_system" hs /\
  member hs "elements" els /\ (forall l, els <> JList l) /\ els <> JObj [] /\ els <> JStr [].
Proof.
  eexists. eexists. split; [eexists; split; reflexivity|]. split; [eexists; split; reflexivity|]. repeat split; discriminate.
Qed.
Example C91_zone_example : Forall2 (fun e v => member e "zone" v) [element "A"; JObj [(lit "zone", JInt 3)]] [JStr (lit "A"); JInt 3] /\
  forall nm, @JInt Z 3 <> JStr nm.
Proof. split; [|discriminate]. constructor; [apply element_zone|]. constructor; [eexists; split; reflexivity|constructor]. Qed.

(** A strategy of the json file that is not text stops the program, nothing is written. *)
Theorem C91_strategy_no_text : forall {F : FloatOps} one of_int grid sf j v t h, member j "split_strategy" v -> (forall s, v <> JStr s) ->
  exists e, fst (split_program one of_int grid sf None (Some (Some j)) t h) = Raise e.
Proof. exact @strategy_no_text. Qed.
Print Assumptions C91_strategy_no_text.

Example C91_strategy_example : member (num := nat) (JObj [(lit "recovery_factor", JFloat 1); (lit "split_strategy", JInt 4)]) "split_strategy" (JInt 4) /\ forall s, JInt (num := nat) 4 <> JStr s.
Proof. split; [eexists; split; reflexivity|discriminate]. Qed.

Theorem C91_heated_stay_refuted : exists (F : FloatOps) one of_int text j hs els e nm hl out h',
  load true text (new_grid empty_heap) = (Ok tt, hl) /\ In nm (map (z_name hl) (g_zones hl)) /\
  member j "heating_system" hs /\ member hs "elements" (JList els) /\ In e els /\ member e "zone" (JStr nm) /\
  split_program one of_int (Some text) (lit ".dat") None (Some (Some j)) ToDat empty_heap = (Ok out, h') /\
  ~ In nm (map (z_name h') (g_zones h')).
Proof.
  set (els := [element "A"; JObj []]). destruct (heat_member els) as (hs & A & B).
  destruct two_domains as (out & h' & R & N).
  exists ZOps, 1%Z, (fun z => z), two_zones, (heat els), hs, els, (element "A"), (lit "A"), plate, out, h'.
  split; [exact plate_run|]. split; [rewrite plate_names; left; reflexivity|]. split; [exact A|]. split; [exact B|]. split; [left; reflexivity|].
  split; [apply element_zone|]. split.
  - rewrite (@element_without_zone ZOps 1%Z (fun z => z) (Some two_zones) (lit ".dat") None (heat els) hs els (lit "n2") 1%Z ToDat empty_heap); [exact R|apply heat_chosen|apply heat_factor|exact A|exact B| |].
    + constructor; [left; eexists; apply element_zone|]. constructor; [|constructor]. right. exists []. split; [reflexivity|intros []].
    + exists (JObj []). split; [right; left; reflexivity|]. exists []. split; [reflexivity|intros []].
  - rewrite N. intros [E|[E|[]]]; discriminate.
Qed.
Print Assumptions C91_heated_stay_refuted.

(** C91.  With two elements in one zone there are fewer domains than asked. *)
Theorem C91_domains_refuted : exists (F : FloatOps) one of_int text strat j k names out hl h',
  load true text (new_grid empty_heap) = (Ok tt, hl) /\ asks strat "n"%char k /\ heated j names /\
  (forall nm, In nm names -> In nm (map (z_name hl) (g_zones hl))) /\ NoDup (map (z_name hl) (g_zones hl)) /\
  split_program one of_int (Some text) (lit ".dat") (Some strat) (Some (Some j)) ToDat empty_heap = (Ok out, h') /\
  (Z.of_nat (length (g_zones h')) < k)%Z.
Proof.
  set (els := [element "A"; element "A"]). destruct (heat_member els) as (hs & A & B).
  destruct fewer_domains as (out & h' & R & N).
  assert (H : heated (heat els) [lit "A"; lit "A"]).
  { left. exists hs, els. split; [exact A|]. split; [exact B|]. constructor; [apply element_zone|]. constructor; [apply element_zone|constructor]. }
  exists ZOps, 1%Z, (fun z => z), two_zones, (lit "n3"), (heat els), 3%Z, [lit "A"; lit "A"], out, plate, h'.
  split; [exact plate_run|]. split; [exists (lit "3"); split; reflexivity|]. split; [exact H|].
  split; [rewrite plate_names; intros nm [<-|[<-|[]]]; left; reflexivity|].
  split; [rewrite plate_names; constructor; [intros [E|[]]; discriminate|constructor; [intros []|constructor]]|].
  split; [|rewrite N; reflexivity].
  rewrite (@program_is_split ZOps 1%Z (fun z => z) _ _ (Some (lit "n3")) (heat els) (lit "n3") [lit "A"; lit "A"] 1%Z); [exact R|left; reflexivity|exact H|apply heat_factor].
Qed.
Print Assumptions C91_domains_refuted.

(** C91.  The strategy z of the help text is refused for every grid, with or without a json
    file. *)
Theorem C91_help_refuted : exists strat, forall {F : FloatOps} one of_int text hl t, load true text (new_grid empty_heap) = (Ok tt, hl) ->
  fst (split_program one of_int (Some text) (lit ".dat") (Some strat) None t empty_heap) = Raise EException.
Proof.
  exists (lit "z"). intros F one of_int text hl t E. rewrite program_plain. apply (split_raises_main text (lit "z") [] one t empty_heap hl E).
  right. left. exists "z"%char, []. split; [reflexivity|]. split; discriminate.
Qed.
Print Assumptions C91_help_refuted.

(* ================================================================== *)
(** C92.  Every option of the remesher has the value of its member of the json file, or its
    default value if there is no such member (verbose may also be set by the command line). *)
Theorem C92_values : forall d vb, exists self, init_remesher (Some (JObj d)) vb = Ok self /\
  forall a, In a remesh_options -> (vb = true -> a <> lit "verbose") ->
  dget str_dec self a = match dget str_dec d (json_key a) with Some v => Some v | None => dget str_dec default_attrs a end.
Proof. exact options_read. Qed.
Print Assumptions C92_values.

Theorem C92_verbose : forall d self, init_remesher (Some (JObj d)) true = Ok self -> dget str_dec self (lit "verbose") = Some (JBool true).
Proof. exact verbose_read. Qed.
Print Assumptions C92_verbose.

Theorem C92_not_object : forall j vb, (forall d, j <> JObj d) -> init_remesher (Some j) vb = Raise ETypeError.
Proof. exact not_object. Qed.
Print Assumptions C92_not_object.

(** C92.  The grid is remeshed with these values: with the defaults without a json file, ... *)
Theorem C92_default : forall {F : FloatOps} real near vb text h,
  remesh_program real near None vb text h = remesh_file real near true default_options text h.
Proof. exact @remesh_options_default. Qed.
Print Assumptions C92_default.

(** ... and with those of the json file if its numbers are numbers. *)
Theorem C92_used : forall {F : FloatOps} real near d vb text h, good_numbers d ->
  exists fixn o, read_fields d o /\ yes_option d "remesh_nss_fix_nodes" true fixn /\
    remesh_program real near (Some (JObj d)) vb text h = remesh_file real near fixn o text h.
Proof. exact @remesh_options_used. Qed.
Print Assumptions C92_used.

Example C92_example : let d := [(lit "remesh_nsteps_max", JInt 5); (lit "remesh_nsmooth_k", JFloat (1 / 2)%R); (lit "time_finish", JStr [])] in
  good_numbers d /\ forall o, read_fields d o -> nsteps_max o = 5%Z /\ nsteps_min o = 0%Z /\ nsmooth_k o = (1 / 2)%R.
Proof.
  cbv zeta. split.
  - split; repeat constructor.
  - intros o (A & B & _ & _ & _ & _ & C & _). split; [exact B|]. split; [exact A|exact C].
Qed.

(** C92.  Every option is printed with the key of the json file. *)
Theorem C92_printed : forall show self a v, In a remesh_options -> dget str_dec self a = Some v ->
  exists pad, In (lit "    " ++ json_key a ++ pad ++ lit " = " ++ show v) (print_options show self) /\ forall c, In c pad -> c = " "%char.
Proof. exact options_printed. Qed.
Print Assumptions C92_printed.
