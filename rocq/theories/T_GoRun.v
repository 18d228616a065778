(** Theorems: running the generated Go functions (C66). *)
From Coq Require Import String List Arith NArith ZArith Bool Lia Floats.SpecFloat.
From Verif Require Import Base M_Naming M_Schema M_Dec M_Errors M_TypeGraph M_Walk M_GoImports M_Text M_Duration M_GoGen M_Strftime M_Validate M_LangValid M_AutoID M_Scope M_GoScope
  S_TypeGraph S_Conform S_Walk S_Strftime S_Validate S_GoImports S_LangValid S_Scope S_Common S_GoGen
  P_Common P_GoSer T_Validate T_LangValid T_EndToEnd T_GoScope T_GoGen
  S_Compare S_GoTyping M_GoTyping T_GoTyping.
From Verif Require Import S_GoRun S_GoMemory P_GoRun P_GoRunSer P_GoRunGraph.
Import ListNotations.
Open Scope list_scope.
Local Open Scope nat_scope.

(** The regular expressions of the package (fromjsonable.py:393-420) *)
Definition go_globals (g : graph) : list (str * str) := match compile_regexes (enumerate_patterns g) with Some l => l | None => [] end.
(** A call of a function of the package with [n] steps, with [fmt.Sprintf] as given *)
Definition go_call (X : gext) (printed : str -> list (rv (g_time X)) -> str) (g : graph) (f : str) (args : list (rv (g_time X))) (n : nat) : act X (list (rv (g_time X))) :=
  S_GoRun.call X printed go_dur_from go_dur_to (go_structs g) (go_functions g) (go_globals g) n f args.

(** The names of the serializers are not those of the libraries. *)
Lemma to_not_library X printed df dt name vs : S_GoRun.library X printed df dt (go_to name) vs = None.
Proof.
  assert (HE : forall x, str_eqb (go_to name) x = true -> rev (firstn 2 (rev x)) = s_ "le").
  { intros x E. apply str_eqb_eq in E as <-. unfold go_to. rewrite rev_app_distr. reflexivity. }
  unfold S_GoRun.library. repeat (match goal with |- context [str_eqb (go_to name) ?x] => destruct (str_eqb (go_to name) x) eqn:?E; [apply HE in E; vm_compute in E; discriminate|clear E] end).
  reflexivity.
Qed.
Lemma found_by_name (fs : list gfunction) f : NoDup (map gf_name fs) -> In f fs -> find (fun h => str_eqb (gf_name h) (gf_name f)) fs = Some f.
Proof.
  induction fs as [|h fs IH]; intros Hn Hin; [destruct Hin|]. cbn [map] in Hn. inversion Hn as [|? ? Hh Hn']; subst. cbn [find]. destruct Hin as [->|Hin].
  - now rewrite str_eqb_refl.
  - destruct (str_eqb (gf_name h) (gf_name f)) eqn:E; [|now apply IH]. apply str_eqb_eq in E. exfalso. apply Hh. rewrite E. now apply in_map.
Qed.

(** C66: running the generated serializer of the graph, on any graph in the memory, comes to
    an end; it returns the object with the members which the model of the serializer gives,
    or [nil] and the error, or it panics where the model does; the graph is not changed. *)
Theorem C66_go_serializer X printed g : NoDup (map gf_name (go_functions g)) ->
  forall inst H l gg, shown_graph X g inst H l gg ->
  match go_ser_graph X g gg with
  | SOk j => exists H' u, run_ends (go_call X printed g (go_to (g_name g)) [RPointer l]) H (Out ([u; RNil], H')) /\
      reads H' (length H) j u /\ unchanged H H'
  | SFail (SError id got) => exists c H', In c (g_classes g) /\
      run_ends (go_call X printed g (go_to (g_name g)) [RPointer l]) H
        (Out ([RNil; RError (printed (s_ "expected the instance of " ++ ucamel (c_name c) ++
                s_ " to have the ID %s according to the registry, but got: %s") [RStr id; RStr got])], H')) /\
      unchanged H H'
  | SFail (SPanic _) => run_ends (go_call X printed g (go_to (g_name g)) [RPointer l]) H Panicked
  end.
Proof.
  intros Hn inst H l gg Hs.
  assert (HF : forall f, In f (serializer_functions g) -> find (fun h => str_eqb (gf_name h) (gf_name f)) (go_functions g) = Some f).
  { intros f Hf. apply found_by_name; [exact Hn|]. apply in_or_app. now right. }
  assert (HG := graph_runs X printed go_dur_from (go_structs g) (go_functions g) (go_globals g) g
    ltac:(intros n e He; apply find_some in He as [He En]; apply str_eqb_eq in En as <-; split; [intros vs; apply to_not_library|];
          apply (HF (serializer_code (e_name e) (e_props e))); unfold serializer_functions; apply in_or_app; right; apply in_or_app; left;
          now apply (in_map (fun e => serializer_code (e_name e) (e_props e))))
    ltac:(intros c Hc; split; [intros vs; apply to_not_library|]; apply (HF (serializer_code (c_name c) (c_props c))); unfold serializer_functions; apply in_or_app; left;
          now apply (in_map (fun c => serializer_code (c_name c) (c_props c))))
    (gg_heap gg) inst H gg l eq_refl ltac:(intros vs; apply to_not_library)
    ltac:(apply (HF (serialize_graph_code g)); unfold serializer_functions; apply in_or_app; right; apply in_or_app; right; now left) Hs).
  destruct (go_ser_graph X g gg) as [j|[p|id got]].
  - destruct HG as (H' & u & [_ K] & HR & HC). exists H', u. split; [exact HC|]. split; [exact HR|]. intros a v E. apply K; auto.
  - exact HG.
  - destruct HG as (c & H' & Hc & [_ K] & HC). exists c, H'. split; [exact Hc|]. split; [exact HC|]. intros a v E. apply K; auto.
Qed.
Print Assumptions C66_go_serializer.

(** C66: for the documents which pass the validations, running the generated serializer on a
    graph in the memory which satisfies the schema gives an object whose JSON text is parsed
    to an equal graph. *)
Theorem C66_go_accepted_partial v s :
  document_of s v -> capital_plurals v -> no_json_names v -> go_validate (sc_graph s) = Ok [] -> go_names_apart (sc_graph s) -> bounds_exact (sc_graph s) ->
  NoDup (map (fun c => lower (c_plural c)) (g_classes (sc_graph s))) ->
  forall X printed order inst H l gg ref cap, visits_all order -> go_graph_sat X (sc_graph s) (go_canon X) gg ->
  shown_graph X (sc_graph s) inst H l gg ->
  exists H' u w x gg', run_ends (go_call X printed (sc_graph s) (go_to (g_name (sc_graph s))) [RPointer l]) H (Out ([u; RNil], H')) /\
    reads H' (length H) w u /\ unchanged H H' /\ via_json w = Some x /\
    go_graph_from X (sc_graph s) order x ref (go_errors_new cap) = Done (Some gg', go_errors_new cap) /\ go_graph_equal X (sc_graph s) gg gg'.
Proof.
  intros Hd Hcap Hj Hv Ha Hb Hk X printed order inst H l gg ref cap Ho Hs Hm.
  destruct (C17_go_accepted_partial v s Hd Hcap Hj Hv Hb Hk X order gg ref cap Ho Hs) as (w & x & gg' & E1 & E2 & E3 & E4).
  assert (Hn : NoDup (map gf_name (go_functions (sc_graph s)))).
  { assert (HN := functions_distinct false v s Hd Hcap Hv Ha). cbn [go_package pk_functions] in HN. unfold keys in HN. rewrite map_app, map_map in HN.
    apply P_Common.NoDup_app_parts in HN. apply HN. }
  assert (HR := C66_go_serializer X printed (sc_graph s) Hn inst H l gg Hm). rewrite E1 in HR. destruct HR as (H' & u & HC & HR & HU).
  exists H', u, w, x, gg'. auto 8.
Qed.
Print Assumptions C66_go_accepted_partial.

(** ** Examples *)

(** The graph of C17 in the memory *)
Definition shown_memory : memory GX :=
  [RStruct [(s_ "Persons", RMap 1); (s_ "Home", RStruct [(s_ "Number", RInt 3); (s_ "Owner", RPointer (3, []))]); (s_ "Ratio", RPointer (5, []));
            (s_ "Since", RPointer (6, [])); (s_ "Zone", RZone (s_ "UTC")); (s_ "Wait", RPointer (7, [])); (s_ "ByYear", RMap 8)];
   REntries [(s_ "p1", RPointer (2, [])); (s_ "p2", RPointer (3, []))];
   RStruct [(s_ "ID", RStr (s_ "p1")); (s_ "Name", RStr (s_ "anna")); (s_ "Friends", RSlice 4)];
   RStruct [(s_ "ID", RStr (s_ "p2")); (s_ "Name", RStr (s_ "abe")); (s_ "Friends", RNil)];
   RItems [RPointer (3, []); RPointer (2, [])];
   RFloat f5; RTime 2020; RDuration 1000000000;
   REntries [(s_ "1999", RSlice 9)];
   RItems [RPointer (3, [])]].
Example C66_go_nontrivial :
  NoDup (map gf_name (go_functions GG)) /\ shown_graph GX GG (fun a => 2 + a) shown_memory (0, []) ggraph /\
  exists H', go_call GX (fun f _ => f) GG (s_ "DemoToJSONable") [RPointer (0, [])] 60 shown_memory = Out ([RMap 13; RNil], H') /\
    nth_error H' 13 = Some (REntries [(s_ "home", RMap 16); (s_ "ratio", RFloat f5); (s_ "since", RStr (s_ "2020")); (s_ "zone", RStr (s_ "UTC"));
                                      (s_ "wait", RStr (s_ "PT1S")); (s_ "by_year", RMap 17); (s_ "persons", RMap 27)]).
Proof.
  split; [apply distinct_NoDup; vm_compute; reflexivity|]. split.
  - eexists. split; [reflexivity|]. split.
    + intros p Hp. cbn in Hp.
      assert (HRef : forall n a, a < 2 -> shown GX GG (gg_heap ggraph) (fun a => 2 + a) shown_memory (TClass n) (RPointer (2 + a, [])) (GRef a)).
      { intros n a Ha. destruct a as [|[|a]]; [| |lia]; eapply shown_ref; reflexivity. }
      repeat (destruct Hp as [<-|Hp]); [..|destruct Hp]; eexists; eexists; (split; [reflexivity|split; [reflexivity|]]).
      * apply shown_required; [reflexivity|]. eapply shown_embed; [reflexivity|]. intros p [<-|[<-|[]]]; eexists; eexists; (split; [reflexivity|split; [reflexivity|]]).
        -- apply shown_required; [reflexivity|]. constructor.
        -- apply shown_nillable; [reflexivity..|]. apply (HRef _ 1). lia.
      * eapply shown_optional; [reflexivity..|]. constructor.
      * eapply shown_optional; [reflexivity..|]. constructor.
      * apply shown_required; [reflexivity|]. constructor.
      * eapply shown_optional; [reflexivity..|]. constructor.
      * apply shown_nillable; [reflexivity..|]. eapply shown_map; [reflexivity|repeat constructor; easy|]. constructor; [|constructor]. split; [reflexivity|].
        eapply shown_array; [reflexivity|]. constructor; [|constructor]. apply (HRef _ 1). lia.
    + intros c [<-|[]]. eexists. split; [reflexivity|]. split; [repeat constructor; vm_compute; intuition discriminate|]. right. exists 1. split; [reflexivity|]. split; [reflexivity|].
      assert (HRef : forall n a, a < 2 -> shown GX GG (gg_heap ggraph) (fun a => 2 + a) shown_memory (TClass n) (RPointer (2 + a, [])) (GRef a)).
      { intros n a Ha. destruct a as [|[|a]]; [| |lia]; eapply shown_ref; reflexivity. }
      intros k o [E|[E|[]]]; injection E as <- <-; eexists; eexists; (split; [reflexivity|split; [reflexivity|split; [reflexivity|]]]); intros p [<-|[<-|[]]]; eexists; eexists; (split; [reflexivity|split; [reflexivity|]]).
      * apply shown_required; [reflexivity|]. constructor.
      * apply shown_nillable; [reflexivity..|]. eapply shown_array; [reflexivity|]. constructor; [apply (HRef _ 1); lia|]. constructor; [apply (HRef _ 0); lia|constructor].
      * apply shown_required; [reflexivity|]. constructor.
      * apply shown_nillable; [reflexivity..|]. constructor.
  - eexists. split; [vm_compute; reflexivity|vm_compute; reflexivity].
Qed.
