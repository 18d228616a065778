(** Theorems about the imports of the generated Go sources (property C48), and about the
    query for a type in a schema (C28). *)
From Coq Require Import String List Arith NArith ZArith Bool Lia.
From Verif Require Import Base M_Naming M_Schema M_TypeGraph M_LangValid M_GoImports M_Validate S_Conform S_Validate P_Parsed
  S_Walk S_GoImports P_GoImports T_Validate T_EndToEnd.
Import ListNotations.
Open Scope list_scope.

Lemma document_resolved s v : document_of s v -> resolved (sc_graph s).
Proof.
  intros (Hw & re_ok & ordered & ref & H). assert (Hd := accepted_describes _ _ _ _ _ Hw H).
  destruct Hd as [Hd _]. eapply parsed_resolved; eauto.
Qed.

(** C28, for the graph of an accepted document: the query tells whether a value of the
    kind occurs in a property of a class, of an embeddable structure or of the graph,
    at whatever depth. *)
Theorem C28_schema v s q :
  document_of s v -> q <> KClass -> q <> KEmbed -> q <> KGraph ->
  (graph_needs (sc_graph s) q = true <-> occurs (sc_graph s) q).
Proof. intros Hd. apply graph_needs_spec. eapply document_resolved; eauto. Qed.

(** C48: types.go imports each package which it mentions once, and no other. *)
Theorem C48_types v s : document_of s v -> exact_imports (types_imports (sc_graph s)) (types_uses (sc_graph s)).
Proof. intros Hd. apply types_exact. eapply document_resolved; eauto. Qed.

(** C48: to_jsonable.go *)
Theorem C48_to_jsonable v s : document_of s v -> exact_imports (to_jsonable_imports (sc_graph s)) (to_jsonable_uses (sc_graph s)).
Proof. intros Hd. apply to_jsonable_exact. Qed.

(** C48: the tests and parse.go *)
Theorem C48_tests v s : document_of s v ->
  exact_imports (from_jsonable_test_imports (sc_graph s)) (from_jsonable_test_uses (sc_graph s)) /\
  exact_imports (to_jsonable_test_imports (sc_graph s)) (to_jsonable_test_uses (sc_graph s)) /\
  exact_imports parse_imports parse_go_uses.
Proof.
  intros Hd. split; [apply from_jsonable_test_exact|]. split; [apply to_jsonable_test_exact|].
  split; [constructor|intros p; reflexivity].
Qed.

(** C48: from_jsonable.go, if there is a class or a property.  Missing: documents without
    both, see [C48_from_jsonable_refuted]. *)
Theorem C48_from_jsonable_partial v s :
  document_of s v -> g_classes (sc_graph s) <> [] \/ (exists t ref, value_type (sc_graph s) t ref) ->
  exact_imports (from_jsonable_imports (sc_graph s)) (from_jsonable_uses (sc_graph s)).
Proof.
  intros Hd H. assert (HR := document_resolved _ _ Hd). split; [apply from_jsonable_NoDup|]. intros p.
  rewrite from_jsonable_all by exact HR. split; [|now left]. intros [Hp | ->]; [exact Hp|]. now apply strings_used.
Qed.

(** Whatever from_jsonable.go mentions is imported, and only strings can be superfluous. *)
Theorem C48_from_jsonable_sufficient v s p :
  document_of s v ->
  (In p (from_jsonable_imports (sc_graph s)) <-> In p (from_jsonable_uses (sc_graph s)) \/ p = s_ "strings").
Proof. intros Hd. apply from_jsonable_all. eapply document_resolved; eauto. Qed.

(** C48 fails for an accepted document which also passes the validation for Go: the
    package strings is imported and not used, which Go refuses. *)
Definition empty_shop : jval :=
  obj [("name", txt "Shop"); ("description", txt "defines a shop.");
       ("embeds", JArr [plain_class "Size" []])]%string.
Theorem C48_from_jsonable_refuted : exists v s,
  document_of s v /\ go_validate (sc_graph s) = Ok [] /\
  In (s_ "strings") (from_jsonable_imports (sc_graph s)) /\ ~ In (s_ "strings") (from_jsonable_uses (sc_graph s)).
Proof.
  exists empty_shop.
  destruct (schema_from_mapping (fun _ => true) true empty_shop []) as [s|e] eqn:E; [|vm_compute in E; discriminate].
  exists s. split; [split; [apply wf_parts; vm_compute; reflexivity|eauto]|].
  vm_compute in E. injection E as <-. split; [vm_compute; reflexivity|]. split.
  - vm_compute. auto.
  - vm_compute. intuition discriminate.
Qed.

(** Non-vacuity: the shop, and the packages of its sources. *)
Example shop_imports : exists s,
  document_of s shop /\ g_classes (sc_graph s) <> [] /\
  from_jsonable_imports (sc_graph s) = map s_ ["fmt"; "math"; "regexp"; "strings"; "time"]%string /\
  to_jsonable_imports (sc_graph s) = [s_ "fmt"] /\ types_imports (sc_graph s) = [s_ "time"] /\
  occurs (sc_graph s) (KPrim PDate) /\ graph_needs (sc_graph s) (KPrim PDate) = true /\
  graph_needs (sc_graph s) (KPrim PDuration) = false.
Proof.
  destruct (schema_from_mapping (fun _ => true) true shop []) as [s|e] eqn:E; [|vm_compute in E; discriminate].
  exists s. assert (D : document_of s shop) by (split; [apply wf_parts; vm_compute; reflexivity|eauto]). split; [exact D|].
  assert (N := C28_schema _ _ (KPrim PDate) D ltac:(discriminate) ltac:(discriminate) ltac:(discriminate)).
  vm_compute in E. injection E as <-. split; [discriminate|]. split; [vm_compute; reflexivity|]. split; [vm_compute; reflexivity|].
  split; [vm_compute; reflexivity|]. split; [apply N; vm_compute; reflexivity|]. split; vm_compute; reflexivity.
Qed.

Print Assumptions C28_schema.
Print Assumptions C48_types.
Print Assumptions C48_to_jsonable.
Print Assumptions C48_tests.
Print Assumptions C48_from_jsonable_partial.
Print Assumptions C48_from_jsonable_sufficient.
Print Assumptions C48_from_jsonable_refuted.
