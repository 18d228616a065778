(** Theorems: running the generated Go parsers (C67). *)
From Coq Require Import String List Arith NArith ZArith Bool Lia Floats.SpecFloat.
From Verif Require Import M_Errors M_Duration S_Common S_GoGen T_GoGen.
From Verif Require Import Base M_Naming M_Schema M_Dec M_TypeGraph M_Walk M_GoImports M_Text M_GoGen M_Strftime M_Validate M_LangValid M_AutoID M_Scope M_GoScope S_TypeGraph S_Conform S_Walk S_Strftime S_Validate S_GoImports S_LangValid S_Scope P_Common P_TypeGraph P_Naming P_Walk P_Validate P_ValidateType P_ValidateDoc P_NoRaise P_ParseInv P_Parsed P_LangValid P_GoImports P_Scope P_PyScope P_BlockScope P_GoScope P_GoFunctions P_GoTime P_GoUses T_Validate T_LangValid T_EndToEnd T_GoImports T_Imports T_GoScope S_GoTyping M_GoTyping P_GoTyping P_GoPackage T_GoTyping.
From Verif Require Import S_GoRun S_GoMemory P_GoRun P_GoRunParse P_GoRunValue P_GoRunSetup P_GoRunFinite P_GoRunRoot P_GoRunCalled T_GoRun.
From Verif Require S_TypeDefs.
Import ListNotations.
Open Scope list_scope.
Local Open Scope nat_scope.

(** The package can be compiled: the types are known, the structures have distinct exported
    names and distinct fields, and no structure contains itself. *)
Record go_compiles (g : graph) : Prop := {
  gc_types : resolved g;
  gc_classes : NoDup (map c_name (g_classes g));
  gc_embeds : NoDup (map e_name (g_embeds g));
  gc_structs : NoDup (keys (go_structs g));
  gc_exported : forall x, In x (keys (go_structs g)) -> capital_name x;
  gc_functions : NoDup (map gf_name (go_functions g));
  gc_class_fields : forall c, In c (g_classes g) -> NoDup (s_ "ID" :: map (fun p => field (p_name p)) (c_props c));
  gc_embed_fields : forall e, In e (g_embeds g) -> NoDup (map (fun p => field (p_name p)) (e_props e));
  gc_graph_fields : NoDup (map (fun c => field (c_plural c)) (g_classes g) ++ map (fun p => field (p_name p)) (g_props g));
  gc_finite : forall n, ~ S_TypeDefs.requires g n n
}.
(** The cells which are not listed stay as they were. *)
Definition only_changes {T} (W : list nat) (H H' : list (rv T)) : Prop := forall a v, nth_error H a = Some v -> ~ In a W -> nth_error H' a = Some v.

(** C67: running the generated parser of the graph, on any JSON value in the memory and a
    target which has its zero value, comes to an end: it panics where the model does;
    otherwise the container of the errors has the errors of the model, with the texts of
    their messages, only the target and the container are changed, and if there are no errors,
    the target holds the graph of the model. *)
Theorem C67_go_parser_partial X printed g : go_compiles g ->
  forall v w ref l ec H es n z,
  json_in H [fst l; ec] v w -> errors_at X printed H ec es -> fst l <> ec ->
  zero X (go_structs g) n (GNamed (ucamel (g_name g))) = Some z -> at_place X H l = Some z ->
  match go_graph_from X g (fun _ _ _ m => m) v ref es with
  | Panic _ => run_ends (go_call X printed g (go_from (g_name g)) [w; RStr ref; RPointer l; RPointer (ec, [])]) H Panicked
  | Done (r, es') => exists H',
      run_ends (go_call X printed g (go_from (g_name g)) [w; RStr ref; RPointer l; RPointer (ec, [])]) H (Out ([], H')) /\
      only_changes [fst l; ec] H H' /\ errors_at X printed H' ec es' /\
      (go_empty es' = true -> exists gg inst, r = Some gg /\ shown_graph X g inst H' l gg)
  end.
Proof.
  intros [HR HN HNe Hst Hcap Hfn Hcf Hef Hgf Hac] v w ref [a path] ec H es n z HJ He Hne Hz Hat. cbn [fst] in *. assert (Hfin := structures_finite X g HR Hst Hcap Hac).
  unfold at_place in Hat. cbn [fst snd] in Hat. destruct (nth_error H a) as [cv|] eqn:Ea; [|discriminate].
  destruct (graph_zero X printed go_dur_to g HR HN HNe Hst Hcap Hfn Hef Hgf n z Hz) as (ws0 & -> & Hnil & Hfresh).
  destruct (graph_ready X printed go_dur_to g HR HN HNe Hfn) as (Hgu & Hgl & Hgfind).
  assert (HG := graph_called X printed go_dur_to (go_structs g) (go_functions g) (go_globals g) g
    (fun avail t Hu => zero_exists X printed go_dur_to g HR HN HNe Hst Hcap Hfn Hef Hfin avail t Hu)
    (embeds_ready X printed go_dur_to g HR HN HNe Hfn Hef)
    (class_ready X printed go_dur_to g HR HN Hfn)
    Hcf
    (fun c Hc => class_zero X printed go_dur_to g HR HN HNe Hst Hcap Hfn Hef Hfin Hcf c Hc)
    (fun c p Hc Hp => patterns_known g p (pattern_of_id g p c Hc Hp)) HN Hgf Hgu Hgl Hgfind
    v w ref a path ec H cv ws0 es HJ He Hne Ea Hat Hnil Hfresh).
  fold (go_call X printed g) in HG. change in_turn with (fun (A : Type) (_ : nat) (_ : str) (m : list (str * A)) => m) in HG.
  destruct (go_graph_from X g _ v ref es) as [[r es']|pn]; [|exact HG].
  destruct HG as (H' & HC & [_ HK] & HE & HS). exists H'. auto.
Qed.
Print Assumptions C67_go_parser_partial.

(** The documents which pass the validations give packages which compile, but for structures
    which contain themselves. *)
Lemma accepted_compiles v s :
  document_of s v -> capital_plurals v -> go_validate (sc_graph s) = Ok [] -> go_names_apart (sc_graph s) ->
  (forall n, ~ S_TypeDefs.requires (sc_graph s) n n) ->
  go_compiles (sc_graph s).
Proof.
  intros Hd Hcap Hv Hap Hfin. assert (HF := functions_distinct false v s Hd Hcap Hv Hap). destruct (C58_go_partial v s Hd Hcap Hv Hap) as [(Hnd & _) _].
  assert (HR := document_resolved _ _ Hd).
  assert (Hname : forall n, In n (structure_names (sc_graph s)) -> capital_name n).
  { intros n Hn. destruct (graph_names _ _ n Hd Hn) as (a & r & E & Ha). exists a, r. split; [exact E|now apply upper_capital]. }
  destruct Hap as (Hapart & _). set (g := sc_graph s) in *.
  assert (HN : NoDup (map c_name (g_classes g)) /\ NoDup (map e_name (g_embeds g))).
  { destruct Hd as (Hw & re_ok & ordered & ref & H). destruct (C33_accepted_schemas _ _ _ _ _ Hw H) as (Hn & _ & _).
    inversion Hn as [|? ? _ Hn']; subst. apply NoDup_app_parts in Hn'. split; apply Hn'. }
  destruct (C37_no_clash_partial g Hapart Hv) as [(ns & F1 & N1 & K1) (Hcf & Hef & (fs & F2 & N2 & K2))].
  unfold go_declared in Hnd. apply NoDup_app_parts in Hnd as (D1 & _ & _).
  constructor; try assumption; try apply HN.
  - now rewrite struct_names.
  - intros x Hx. rewrite struct_names in Hx.
    assert (HX : exists n, In n (structure_names g) /\ x = ucamel n).
    { apply in_map_iff in Hx as (n & <- & Hn). exists n. split; [|reflexivity]. unfold structure_names. cbn. rewrite !in_app_iff in *. cbn in Hn. intuition. }
    destruct HX as (n & Hn & ->). apply (ucamel_name g); auto. intros m Hm. destruct (Forall2_In_l _ _ _ F1 _ Hm) as (i & _ & Hi). now exists i.
  - cbn [go_package pk_functions] in HF. unfold keys in HF. rewrite map_app, map_map in HF. apply NoDup_app_parts in HF. apply HF.
  - intros c Hc. destruct (Hcf c Hc) as [(ids & F & N & _) Hown]. change (fun p => field (p_name p)) with (fun p => ucamel (p_name p)). rewrite <- (map_map p_name ucamel). rewrite (ucamel_all _ _ F). constructor; [|exact N].
    intros Hin. destruct (Forall2_In_r _ _ _ F _ Hin) as (n & Hn & Hu). apply in_map_iff in Hn as (p & <- & Hp). now apply (Hown p Hp).
  - intros e He. destruct (Hef e He) as (ids & F & N & _). change (fun p => field (p_name p)) with (fun p => ucamel (p_name p)). rewrite <- (map_map p_name ucamel). now rewrite (ucamel_all _ _ F).
  - change (fun p => field (p_name p)) with (fun p => ucamel (p_name p)). change (fun c => field (c_plural c)) with (fun c => ucamel (c_plural c)). rewrite <- (map_map c_plural ucamel), <- (map_map p_name ucamel), <- map_app. apply (Permutation.Permutation_NoDup (l := map ucamel (map p_name (g_props g) ++ map c_plural (g_classes g)))).
    + apply Permutation.Permutation_map, Permutation.Permutation_app_comm.
    + now rewrite (ucamel_all _ _ F2).
Qed.

(** C67: the same for the documents which pass the validations. *)
Theorem C67_go_accepted_partial X printed v s :
  document_of s v -> capital_plurals v -> go_validate (sc_graph s) = Ok [] -> go_names_apart (sc_graph s) ->
  (forall n, ~ S_TypeDefs.requires (sc_graph s) n n) ->
  forall j w ref l ec H es n z,
  json_in H [fst l; ec] j w -> errors_at X printed H ec es -> fst l <> ec ->
  zero X (go_structs (sc_graph s)) n (GNamed (ucamel (g_name (sc_graph s)))) = Some z -> at_place X H l = Some z ->
  match go_graph_from X (sc_graph s) (fun _ _ _ m => m) j ref es with
  | Panic _ => run_ends (go_call X printed (sc_graph s) (go_from (g_name (sc_graph s))) [w; RStr ref; RPointer l; RPointer (ec, [])]) H Panicked
  | Done (r, es') => exists H',
      run_ends (go_call X printed (sc_graph s) (go_from (g_name (sc_graph s))) [w; RStr ref; RPointer l; RPointer (ec, [])]) H (Out ([], H')) /\
      only_changes [fst l; ec] H H' /\ errors_at X printed H' ec es' /\
      (go_empty es' = true -> exists gg inst, r = Some gg /\ shown_graph X (sc_graph s) inst H' l gg)
  end.
Proof. intros Hd Hcap Hv Ha Hfin. apply C67_go_parser_partial. now apply (accepted_compiles v). Qed.
Print Assumptions C67_go_accepted_partial.

(** C67: for such documents, a graph in the memory which satisfies the schema is serialized by
    running the generated serializer; wherever the object which is read from its text lies in
    the memory of another run, running the generated parser reports no errors and leaves an
    equal graph in the target. *)
Theorem C67_go_round_trip_partial v s :
  document_of s v -> capital_plurals v -> no_json_names v -> go_validate (sc_graph s) = Ok [] -> go_names_apart (sc_graph s) -> bounds_exact (sc_graph s) ->
  NoDup (map (fun c => lower (c_plural c)) (g_classes (sc_graph s))) ->
  (forall n, ~ S_TypeDefs.requires (sc_graph s) n n) ->
  forall X printed inst H l gg, go_graph_sat X (sc_graph s) (go_canon X) gg -> shown_graph X (sc_graph s) inst H l gg ->
  exists H' u w x, run_ends (go_call X printed (sc_graph s) (go_to (g_name (sc_graph s))) [RPointer l]) H (Out ([u; RNil], H')) /\
    reads H' (length H) w u /\ unchanged H H' /\ via_json w = Some x /\
    forall H2 u2 l2 ec ref cap n z,
    json_in H2 [fst l2; ec] x u2 -> errors_at X printed H2 ec (go_errors_new cap) -> fst l2 <> ec ->
    zero X (go_structs (sc_graph s)) n (GNamed (ucamel (g_name (sc_graph s)))) = Some z -> at_place X H2 l2 = Some z ->
    exists H3 inst' gg', run_ends (go_call X printed (sc_graph s) (go_from (g_name (sc_graph s))) [u2; RStr ref; RPointer l2; RPointer (ec, [])]) H2 (Out ([], H3)) /\
      only_changes [fst l2; ec] H2 H3 /\ errors_at X printed H3 ec (go_errors_new cap) /\
      shown_graph X (sc_graph s) inst' H3 l2 gg' /\ go_graph_equal X (sc_graph s) gg gg'.
Proof.
  intros Hd Hcap Hj Hv Ha Hb Hk Hfin X printed inst H l gg Hs Hm.
  destruct (C17_go_accepted_partial v s Hd Hcap Hj Hv Hb Hk X in_order gg [] 0%N in_order_ok Hs) as (w & x & _ & Ew & Ex & _).
  assert (HG := accepted_compiles v s Hd Hcap Hv Ha Hfin).
  assert (HR := C66_go_serializer X printed (sc_graph s) (gc_functions _ HG) inst H l gg Hm). rewrite Ew in HR. destruct HR as (H' & u & HC & HR & HU).
  exists H', u, w, x. do 4 (split; [assumption|]). intros H2 u2 l2 ec ref cap n z HJ He Hne Hz Hat.
  destruct (C17_go_accepted_partial v s Hd Hcap Hj Hv Hb Hk X in_order gg ref cap in_order_ok Hs) as (w' & x' & gg' & Ew' & Ex' & Ep & Eq).
  rewrite Ew in Ew'. injection Ew' as <-. rewrite Ex in Ex'. injection Ex' as <-.
  assert (HP := C67_go_parser_partial X printed (sc_graph s) HG x u2 ref l2 ec H2 (go_errors_new cap) n z HJ He Hne Hz Hat).
  change (fun (A : Type) (_ : nat) (_ : str) (m : list (str * A)) => m) with in_order in HP. rewrite Ep in HP.
  destruct HP as (H3 & HC3 & HK & HE & HS). destruct (HS eq_refl) as (gg0 & inst' & E & Hs3). injection E as <-. exists H3, inst', gg'. auto 6.
Qed.
Print Assumptions C67_go_round_trip_partial.

Lemma json_in_wf {T} (H : list (rv T)) W j : forall v, json_in H W j v -> json_wf j.
Proof.
  induction j as [| | | | |l IH|l IH] using jval_ind'; intros v Hj; try constructor.
  - apply json_arr in Hj as (a & ws & _ & _ & _ & HF). intros x Hx. destruct (Forall2_In_l _ _ _ HF _ Hx) as (w & _ & Hw). rewrite Forall_forall in IH. now apply (IH x Hx w).
  - apply json_obj in Hj as (a & ws & _ & _ & _ & Hn & _). exact Hn.
  - apply json_obj in Hj as (a & ws & _ & _ & _ & _ & HF). intros k x Hx. destruct (Forall2_In_l _ _ _ HF _ Hx) as (w & _ & _ & Hw). rewrite Forall_forall in IH. now apply (IH (k, x) Hx (snd w)).
Qed.
Lemma run_once {X A} (run : nat -> act X A) H o o' : run_ends run H o -> run_ends run H o' -> o = o'.
Proof. intros [n Hn] [m Hm]. rewrite <- (Hn (n + m)) by lia. apply Hm. lia. Qed.

(** No error is in the container. *)
Definition no_errors {X} (H : memory X) (ec : nat) : Prop := exists cap, nth_error H ec = Some (RErrors (GoErrors cap [])).
Lemma errors_none X printed H ec es : errors_at X printed H ec es -> (no_errors H ec <-> go_empty es = true).
Proof.
  intros ([cap vals] & E & [_ HF]). cbn [go_values] in HF. unfold no_errors, go_empty. rewrite E. destruct es as [cap' es]. cbn [go_values] in *. split.
  - intros [c Ec]. injection Ec as -> ->. inversion HF. reflexivity.
  - intros Hl. destruct es as [|e es]; [|discriminate]. inversion HF. now exists cap.
Qed.

(** C67: for the documents which pass the validations, running the generated parser checks the
    JSON value: if the run ends without errors, the value conforms to the schema and the target
    holds a graph which represents it; if a value without null conforms, the run ends without errors; if the run
    panics, the value does not conform or has a null. *)
Theorem C67_go_checks_partial v s :
  document_of s v -> capital_plurals v -> go_validate (sc_graph s) = Ok [] -> go_names_apart (sc_graph s) -> bounds_exact (sc_graph s) ->
  (forall n, ~ S_TypeDefs.requires (sc_graph s) n n) ->
  forall X printed j w ref l ec H cap n z,
  json_in H [fst l; ec] j w -> nth_error H ec = Some (RErrors (GoErrors cap [])) -> fst l <> ec ->
  zero X (go_structs (sc_graph s)) n (GNamed (ucamel (g_name (sc_graph s)))) = Some z -> at_place X H l = Some z ->
  let run := go_call X printed (sc_graph s) (go_from (g_name (sc_graph s))) [w; RStr ref; RPointer l; RPointer (ec, [])] in
  (run_ends run H Panicked \/ exists H', run_ends run H (Out ([], H'))) /\
  (forall H', run_ends run H (Out ([], H')) -> no_errors H' ec ->
    go_conforms X (sc_graph s) j /\
    exists members gg inst, j = JObj members /\ shown_graph X (sc_graph s) inst H' l gg /\ go_graph_rep X (sc_graph s) members gg) /\
  (no_null j -> go_conforms X (sc_graph s) j -> exists H', run_ends run H (Out ([], H')) /\ no_errors H' ec).
Proof.
  intros Hd Hcap Hv Ha Hb Hac X printed j w ref l ec H cap n z HJ He Hne Hz Hat run.
  assert (Hes : errors_at X printed H ec (go_errors_new cap)) by (eexists; split; [exact He|split; [reflexivity|constructor]]).
  assert (HP := C67_go_accepted_partial X printed v s Hd Hcap Hv Ha Hac j w ref l ec H (go_errors_new cap) n z HJ Hes Hne Hz Hat). fold run in HP.
  destruct (C16_go_accepted_partial v s Hd Hv Hb X in_order j ref cap in_order_ok (json_in_wf _ _ _ _ HJ)) as (Hsound & Hcomplete & _).
  change (fun (A : Type) (_ : nat) (_ : str) (m : list (str * A)) => m) with in_order in HP.
  destruct (go_graph_from X (sc_graph s) in_order j ref (go_errors_new cap)) as [[r es]|pn].
  - destruct HP as (H1 & HC & HK & HE & HS). split; [right; now exists H1|]. split.
    + intros H' HC' Hno. assert (E := run_once _ _ _ _ HC HC'). injection E as <-. apply (errors_none _ _ _ _ _ HE) in Hno.
      destruct (Hsound r es eq_refl Hno) as (members & gg & -> & -> & Hconf & Hrep & _). destruct (HS Hno) as (gg' & inst & E & Hs). injection E as <-.
      split; [exact Hconf|]. exists members, gg, inst. auto.
    + intros Hnn Hconf. exists H1. split; [exact HC|]. apply (errors_none _ _ _ _ _ HE). destruct (Hcomplete Hnn Hconf) as (gg & E). now injection E as -> ->.
  - split; [now left|]. split.
    + intros H' HC' _. assert (E := run_once _ _ _ _ HP HC'). discriminate.
    + intros Hnn Hconf. destruct (Hcomplete Hnn Hconf) as (gg & E). discriminate.
Qed.
Print Assumptions C67_go_checks_partial.

(** ** Examples *)

(** The object of C16 in the memory, with a target and a container of the errors *)
Definition parse_memory (cap : N) : memory GX :=
  [match zero GX (go_structs GG) 9 (GNamed (s_ "Demo")) with Some z => z | None => RNil end;
   RErrors (go_errors_new cap);
   REntries [(s_ "persons", RMap 3); (s_ "home", RMap 7); (s_ "ratio", RFloat f5); (s_ "since", RStr (s_ "2020")); (s_ "zone", RStr (s_ "UTC"));
             (s_ "wait", RStr (s_ "PT1S")); (s_ "by_year", RMap 8)];
   REntries [(s_ "p1", RMap 4); (s_ "p2", RMap 6)];
   REntries [(s_ "name", RStr (s_ "anna")); (s_ "friends", RSlice 5)];
   RItems [RStr (s_ "p2"); RStr (s_ "p1")];
   REntries [(s_ "name", RStr (s_ "abe"))];
   REntries [(s_ "number", RFloat f3); (s_ "owner", RStr (s_ "p2"))];
   REntries [(s_ "1999", RSlice 9)];
   RItems [RStr (s_ "p2")]].
Example GG_compiles : go_compiles GG.
Proof.
  constructor.
  - exact GG_resolved.
  - apply distinct_NoDup; vm_compute; reflexivity.
  - apply distinct_NoDup; vm_compute; reflexivity.
  - apply distinct_NoDup; vm_compute; reflexivity.
  - intros x Hx. vm_compute in Hx. repeat (destruct Hx as [<-|Hx]; [eexists; eexists; split; reflexivity|]). destruct Hx.
  - apply distinct_NoDup; vm_compute; reflexivity.
  - intros c [<-|[]]. apply distinct_NoDup; vm_compute; reflexivity.
  - intros c [<-|[]]. apply distinct_NoDup; vm_compute; reflexivity.
  - apply distinct_NoDup; vm_compute; reflexivity.
  - assert (HX : forall m n, ~ S_TypeDefs.requires GG m n).
    { intros m n H. induction H as [e p n He Hp Ho Et|m n o _ IH _ _]; [|exact IH]. destruct He as [<-|[]]. destruct Hp as [<-|[<-|[]]]; discriminate. }
    intros n. apply HX.
Qed.
Example C67_go_nontrivial :
  go_compiles GG /\ json_in (parse_memory 0) [0; 1] (JObj gl) (RMap 2) /\ errors_at GX (fun f _ => f) (parse_memory 0) 1 (go_errors_new 0) /\
  zero GX (go_structs GG) 9 (GNamed (s_ "Demo")) = at_place GX (parse_memory 0) (0, []) /\
  exists inst H', run_ends (go_call GX (fun f _ => f) GG (s_ "DemoFromJSONable") [RMap 2; RStr (s_ "#"); RPointer (0, []); RPointer (1, [])]) (parse_memory 0) (Out ([], H')) /\
    shown_graph GX GG inst H' (0, []) ggraph.
Proof.
  assert (HJ : json_in (parse_memory 0) [0; 1] (JObj gl) (RMap 2)).
  { repeat (match goal with
      | |- json_in _ _ (JObj _) _ => eexists; eexists; split; [reflexivity|]; split; [intros [E|[E|[]]]; discriminate|]; split; [reflexivity|]; split; [apply distinct_NoDup; vm_compute; reflexivity|]
      | |- json_in _ _ (JArr _) _ => eexists; eexists; split; [reflexivity|]; split; [intros [E|[E|[]]]; discriminate|]; split; [reflexivity|]
      | |- _ /\ _ => split
      | |- True => exact I
      | |- _ => reflexivity
      | |- _ => split
      end). }
  assert (HE : errors_at GX (fun f _ => f) (parse_memory 0) 1 (go_errors_new 0)) by (eexists; split; [reflexivity|split; [reflexivity|constructor]]).
  assert (HZ : exists z, zero GX (go_structs GG) 9 (GNamed (s_ "Demo")) = Some z) by (eexists; vm_compute; reflexivity). destruct HZ as (z & Hz).
  assert (Ha : at_place GX (parse_memory 0) (0, []) = Some z) by (unfold at_place, parse_memory; cbn [fst snd nth_error]; rewrite Hz; reflexivity).
  split; [exact GG_compiles|]. split; [exact HJ|]. split; [exact HE|]. split; [now rewrite Hz, Ha|].
  assert (HP := C67_go_parser_partial GX (fun f _ => f) GG GG_compiles (JObj gl) (RMap 2) (s_ "#") (0, []) 1 (parse_memory 0) (go_errors_new 0) 9 z HJ HE ltac:(discriminate) Hz Ha).
  change (fun (A : Type) (_ : nat) (_ : str) (m : list (str * A)) => m) with in_order in HP. rewrite C16_demo in HP.
  destruct HP as (H' & HC & _ & _ & HS). destruct (HS eq_refl) as (gg & inst & E & Hs). injection E as <-. exists inst, H'. split; [exact HC|exact Hs].
Qed.

(** The hypotheses on documents hold for the shop of C60. *)
Example C67_go_accepted_nontrivial : exists s,
  document_of s go_shelf /\ capital_plurals go_shelf /\ no_json_names go_shelf /\ go_validate (sc_graph s) = Ok [] /\ go_names_apart (sc_graph s) /\ bounds_exact (sc_graph s) /\
  NoDup (map (fun c => lower (c_plural c)) (g_classes (sc_graph s))) /\ (forall n, ~ S_TypeDefs.requires (sc_graph s) n n) /\
  exists n z, zero GX (go_structs (sc_graph s)) n (GNamed (ucamel (g_name (sc_graph s)))) = Some z.
Proof.
  by_document go_shelf s D. eexists. split; [exact D|]. split; [plurals_capital|]. split.
  { intros l c ps k m El Hc Hps Hm. injection El as <-.
    assert (Hk : forall n o, In n (parts go_shelf) -> n = JObj o -> no_member o "json").
    { intros n o Hn -> Hin. cbn in Hn. repeat destruct Hn as [Hn | Hn]; try discriminate; try contradiction; injection Hn as <-;
        cbn in Hin; repeat destruct Hin as [Hin | Hin]; try discriminate; contradiction. }
    apply (Hk (JObj m) m); [|reflexivity]. apply part_parts.
    assert (Pc : S_Validate.part (JObj c) go_shelf).
    { destruct Hc as [|cs c Hu Hc|es e Hu Hc]; [constructor| |];
        (destruct Hu as [Hu | [_ ->]]; [|contradiction]; eapply part_object; [exact Hu|]; eapply part_array; [exact Hc|]; constructor). }
    revert Pc. generalize go_shelf. intros v Pc. induction Pc; [|econstructor; eauto|econstructor; eauto].
    eapply part_object; [exact Hps|]. eapply part_object; [exact Hm|]. constructor. }
  split; [vm_compute; reflexivity|].
  split; [split; [|split; [|split]]|split; [|split; [apply distinct_NoDup; vm_compute; reflexivity|split]]].
  - intros n i Hn Hi Hj. apply ucamel_upper in Hi, Hj. vm_compute in Hn. rewrite <- Hi in Hj. repeat (destruct Hn as [<-|Hn]; [vm_compute in Hj; discriminate Hj|]). destruct Hn.
  - intros n i Hn Hi [H|(m & j & Hm & Hj & H)]; apply ucamel_upper in Hi; [|apply ucamel_upper in Hj];
      vm_compute in Hn; repeat (destruct Hn as [<-|Hn]; [vm_compute in Hi; injection Hi as <-|]); try (destruct Hn);
      try (apply mem_In in H; vm_compute in H; discriminate);
      vm_compute in Hm; repeat (destruct Hm as [<-|Hm]; [vm_compute in Hj; injection Hj as <-; destruct H as [H|H]; vm_compute in H; discriminate|]); destruct Hm.
  - exists [s_ "articles"; s_ "bigBoxes"]. split; [|repeat constructor; vm_compute; intuition discriminate].
    constructor; [|constructor; [|constructor]].
    + exists (s_ "Articles"), []. split; [reflexivity|]. split; [|reflexivity]. intros q [<-|[]]. split; [discriminate|vm_compute; intuition discriminate].
    + exists (s_ "Big"), [s_ "boxes"]. split; [reflexivity|]. split; [|reflexivity]. intros q [<-|[<-|[]]]; (split; [discriminate|vm_compute; intuition discriminate]).
  - intros c i j Hc Hi Hj. apply ucamel_upper in Hi. apply camel_lower in Hj. vm_compute in Hc. destruct Hc as [<-|[<-|[]]]; vm_compute in Hi, Hj; injection Hi as <-; injection Hj as <-; discriminate.
  - intros ps p H1 H2. cbn in H1. destruct H1 as [<-|[<-|[<-|[<-|[]]]]]; cbn in H2; repeat (destruct H2 as [<-|H2]; [cbn; try exact I|]); destruct H2.
  - assert (HX : forall g m n, (forall e p, In e (g_embeds g) -> In p (e_props e) -> p_optional p = false -> forall o, p_type p <> TEmbed o) -> ~ S_TypeDefs.requires g m n).
    { intros g m n Hg H. induction H as [e p n He Hp Ho Et|m n o _ IH _ _]; [|exact IH]. now apply (Hg e p He Hp Ho n). }
    intros n. apply HX. intros e p He Hp Ho. cbn in He. destruct He as [<-|[]]. cbn in Hp. destruct Hp as [<-|[]]. discriminate Ho.
  - exists 9. eexists. vm_compute. reflexivity.
Qed.

(** C67: a JSON value with two wrong instances is not reported: the run panics (C15). *)
Theorem C67_go_panics_refuted : exists g v w H,
  go_compiles g /\ json_in H [0; 1] v w /\ nth_error H 1 = Some (RErrors (GoErrors 0 [])) /\
  (exists n, zero GX (go_structs g) n (GNamed (ucamel (g_name g))) = at_place GX H (0, []) /\ at_place GX H (0, []) <> None) /\
  run_ends (go_call GX (fun f _ => f) g (go_from (g_name g)) [w; RStr (s_ "#"); RPointer (0, []); RPointer (1, [])]) H Panicked.
Proof.
  assert (HZ : exists z, zero GX (go_structs GG) 9 (GNamed (s_ "Demo")) = Some z) by (eexists; vm_compute; reflexivity). destruct HZ as (z & Hz).
  set (H := [z; RErrors (GoErrors 0 []); REntries [(s_ "persons", RMap 3)]; REntries [(s_ "p1", RMap 4); (s_ "p2", RMap 5)]; REntries []; REntries []] : memory GX).
  set (v := JObj [(s_ "persons", JObj [(s_ "p1", JObj []); (s_ "p2", JObj [])])]).
  assert (HJ : json_in H [0; 1] v (RMap 2)).
  { unfold v, H. repeat (match goal with
      | |- json_in _ _ (JObj _) _ => eexists; eexists; split; [reflexivity|]; split; [intros [E|[E|[]]]; discriminate|]; split; [reflexivity|]; split; [apply distinct_NoDup; vm_compute; reflexivity|]
      | |- _ /\ _ => split
      | |- True => exact I
      | |- _ => reflexivity
      | |- _ => split
      end). }
  exists GG, v, (RMap 2), H. split; [exact GG_compiles|]. split; [exact HJ|]. split; [reflexivity|]. split; [exists 9; split; [exact Hz|discriminate]|].
  assert (HP := C67_go_parser_partial GX (fun f _ => f) GG GG_compiles v (RMap 2) (s_ "#") (0, []) 1 H (go_errors_new 0) 9 z HJ
    ltac:(eexists; split; [reflexivity|split; [reflexivity|constructor]]) ltac:(discriminate) Hz eq_refl).
  change (fun (A : Type) (_ : nat) (_ : str) (m : list (str * A)) => m) with in_order in HP.
  destruct C15_go_second_error_panics_refuted as [_ E]. fold v in E. rewrite E in HP. exact HP.
Qed.
Print Assumptions C67_go_panics_refuted.
