(** Theorems: the names in the generated Python functions mean what they are meant to (C58). *)
From Coq Require Import String List Arith NArith ZArith Bool Lia.
From Verif Require Import Base M_Naming M_Schema M_Dec M_TypeGraph M_Walk M_GoImports M_PyImports M_Text M_Validate M_LangValid M_AutoID M_Scope M_PyScope
  S_TypeGraph S_Conform S_Walk S_Validate S_LangValid S_PyTypes S_Imports S_Scope
  P_Common P_Validate P_GoImports P_PyImports P_Scope P_PyScope T_Validate T_LangValid T_EndToEnd T_GoImports T_PyTypes T_Imports.
Import ListNotations.
Open Scope list_scope.
Local Open Scope nat_scope.

(** In the generated sources which parse, serialize and make placeholders, the functions are
    defined once and hide neither each other nor what is imported or built in, and whatever
    is executed, each name means what it is meant to: for all documents which pass the
    validations, if the names of the structures differ in lower case and the few pairs of
    [python_names_apart] differ. *)
Theorem C58_python_partial v s py :
  document_of s v -> capital_plurals v -> sc_py s = Some py -> py_validate (sc_graph s) = Ok [] ->
  python_names_apart (sc_graph s) (bound_as (pc_module_name py)) ->
  let module := pc_module_name py in let g := sc_graph s in
  (exists imports, py_from_imports py g = Ok imports /\
     python_source_right module imports (py_from_defined g) (py_parsers py g)) /\
  python_source_right module (py_to_imports py g) (py_to_defined g) (py_serializers py g) /\
  python_source_right module (py_parse_imports py) (py_parse_defined g) (py_placeholders py g).
Proof.
  intros Hd Hcap Es Hv Hapart module g.
  assert (HR := document_resolved _ _ Hd). assert (HS := document_settings _ _ _ Hd Es). fold g in HR, Hv, Hapart.
  assert (HN : NoDup (map c_name (g_classes g))).
  { destruct Hd as (Hw & re_ok & ordered & ref & H). destruct (C33_accepted_schemas _ _ _ _ _ Hw H) as (Hn & _ & _).
    inversion Hn as [|? ? _ Hn']; subst. now apply NoDup_app_parts in Hn'. }
  assert (Hplural : forall c, In c (g_classes g) -> capital_name (c_plural c)).
  { intros c Hc. destruct (graph_plurals _ _ c Hd Hcap Hc) as (a & r & E & Ha). exists a, r. split; [exact E|now apply upper_capital]. }
  apply C36_no_errors_partial in Hv. destruct Hv as (V1 & V2 & _ & _ & V3).
  assert (HNplural : NoDup (map lower (map c_plural (g_classes g)))).
  { apply usable_part in V3 as [_ V3]. now apply usable_lower in V3. }
  assert (Hname : forall n, In n (structure_names g) -> capital_name n).
  { assert (K : forall names n, usable python36_keywords camel_composite names -> In n names -> capital_name n).
    { intros names n (ids & F & _) Hn. destruct (Forall2_In_l _ _ _ F _ Hn) as (i & _ & (c & r & -> & Hc) & _). exists c, r. split; [reflexivity|]. now apply upper_capital. }
    intros n [<-|Hn]; [apply (K [g_name g]); [exact V1|now left]|now apply (K _ n V2)]. }
  assert (Hdecl : forall l p, In p (import_declarations l) <-> In p l) by (intros l p; apply import_declarations_exact).
  split; [|split].
  - destruct (from_imports_reason py g HR HS) as (imports & E & Hi). exists imports. split; [exact E|]. apply from_source; try assumption.
    + intros m Hm. apply Hi in Hm. unfold reason in Hm. unfold known_module. cbn.
      destruct Hm as [->|[->|[->|[[-> _]|[[[->| ->] _]|[[-> _]|[[-> _]|[-> _]]]]]]]]; tauto.
    + intros m Hm. apply Hi. now apply from_uses_reason.
  - apply to_source; try assumption.
    + intros m Hm. unfold py_to_imports in Hm. rewrite in_app_iff, !Hdecl in Hm. unfold known_module. cbn in Hm |- *.
      destruct (graph_needs g (KPrim PDuration)); cbn in Hm; tauto.
    + unfold py_to_imports. rewrite in_app_iff, !Hdecl. left. cbn. tauto.
  - apply parse_source; try assumption.
    + intros m Hm. unfold py_parse_imports in Hm. rewrite in_app_iff, !Hdecl in Hm. unfold known_module. cbn in Hm |- *. tauto.
    + unfold py_parse_imports. rewrite in_app_iff, !Hdecl. right. cbn. tauto.
Qed.
Print Assumptions C58_python_partial.

(** ** An example *)

(** A shop with articles in boxes, whose sizes refer to articles. *)
Definition scope_shop : jval := with_py
  [("classes", JArr [plain_class "Article" [("id_pattern", txt "^[a-z]+$"); ("properties", obj [("size", property [("type", txt "Size")])])];
                     plain_class "Box" [("plural", txt "Boxes"); ("properties", obj [("content", property [("type", txt "map"); ("values", obj [("type", txt "Article")])])])]]);
   ("embeds", JArr [plain_class "Size" [("properties", obj [("like", property [("type", txt "Article")])])]]);
   ("properties", obj [("rented", property [("type", txt "array"); ("values", obj [("type", txt "duration")])])])]%string.

(** It meets the hypotheses; the parser of articles gets the registry of the articles, since
    their sizes refer to articles. *)
Example C58_python_nontrivial : exists s py,
  document_of s scope_shop /\ capital_plurals scope_shop /\ sc_py s = Some py /\ py_validate (sc_graph s) = Ok [] /\
  python_names_apart (sc_graph s) (bound_as (pc_module_name py)) /\
  py_from_defined (sc_graph s) = map s_ ["_duration_from_string"; "_article_from"; "article_from"; "_box_from"; "box_from"; "_size_from"; "size_from"; "shop_from"]%string /\
  map (fun f => map snd (fn_params f)) (py_parsers py (sc_graph s)) =
    map (map s_) [["value"; "articles_registry"; "ref"; "target"; "errors"]; ["value"; "id"; "articles_registry"; "ref"; "errors"];
                  ["value"; "articles_registry"; "ref"; "target"; "errors"]; ["value"; "id"; "articles_registry"; "ref"; "errors"];
                  ["value"; "articles_registry"; "ref"; "target"; "errors"]; ["value"; "articles_registry"; "ref"; "errors"];
                  ["value"; "ref"; "errors"]]%string.
Proof.
  destruct (schema_from_mapping (fun _ => true) true scope_shop []) as [s|e] eqn:E; [|vm_compute in E; discriminate].
  exists s. assert (D : document_of s scope_shop) by (split; [apply wf_parts; vm_compute; reflexivity|eauto]).
  vm_compute in E. injection E as <-. eexists. split; [exact D|].
  split.
  { intros l cs c p El Hcs Hc (m & -> & Hp). injection El as <-. cbn in Hcs. repeat destruct Hcs as [Hcs | Hcs]; try discriminate; try contradiction.
    injection Hcs as <-. cbn in Hc. repeat destruct Hc as [Hc | Hc]; try contradiction; injection Hc as <-.
    - destruct Hp as [Hp | (_ & n & Hp & ->)]; cbn in Hp; repeat destruct Hp as [Hp | Hp]; try discriminate; try contradiction.
      injection Hp as <-. eexists _, _. split; [vm_compute; reflexivity|]. unfold capital. lia.
    - destruct Hp as [Hp | (Hno & _)]; [|exfalso; apply Hno; cbn; auto].
      cbn in Hp; repeat destruct Hp as [Hp | Hp]; try discriminate; try contradiction.
      injection Hp as <-. eexists _, _. split; [vm_compute; reflexivity|]. unfold capital. lia. }
  split; [reflexivity|]. split; [vm_compute; reflexivity|]. split; [|split; vm_compute; reflexivity].
  split; [vm_compute; repeat constructor; cbn; intuition discriminate|]. split; [|split].
  - assert (P : bound_as (s_ "some.shop") = s_ "some") by reflexivity. cbn [pc_module_name]. intros H.
    change (bound_as _) with (s_ "some") in H. destruct H as [H|[(c & Hc & H)|[(stem & k & Hs & H)|(n & Hn & H)]]].
    + cbn in H. repeat (destruct H as [H|H]; [discriminate H|]). destruct H.
    + vm_compute in Hc. destruct Hc as [<-|[<-|[]]]; destruct H as [H|H]; vm_compute in H; discriminate H.
    + cbn in Hs. repeat (destruct Hs as [<-|Hs]; [discriminate H|]). destruct Hs.
    + vm_compute in Hn. repeat (destruct Hn as [<-|Hn]; [vm_compute in H; intuition discriminate|]). destruct Hn.
  - vm_compute. intuition discriminate.
  - intros c Hc. vm_compute in Hc. destruct Hc as [<-|[<-|[]]]; (split; [vm_compute; discriminate|]); intros n Hn; vm_compute in Hn;
      repeat (destruct Hn as [<-|Hn]; [vm_compute; discriminate|]); destruct Hn.
Qed.

(** ** What the validations do not notice *)

(** The names of two structures which differ only in case give one function, though not one
    class: the functions of the first are replaced. *)
Definition urls : jval := with_py
  [("embeds", JArr [plain_class "SomeURL" [("properties", obj [("text", property [("type", txt "string")])])];
                    plain_class "SomeUrl" [("properties", obj [("number", property [("type", txt "integer")])])]])]%string.
Theorem C58_python_case_refuted : exists v s py,
  document_of s v /\ capital_plurals v /\ sc_py s = Some py /\ py_validate (sc_graph s) = Ok [] /\
  ~ NoDup (py_from_defined (sc_graph s)) /\ ~ NoDup (py_to_defined (sc_graph s)) /\ ~ NoDup (py_parse_defined (sc_graph s)).
Proof.
  destruct (schema_from_mapping (fun _ => true) true urls []) as [s|e] eqn:E; [|vm_compute in E; discriminate].
  exists urls, s. assert (D : document_of s urls) by (split; [apply wf_parts; vm_compute; reflexivity|eauto]).
  vm_compute in E. injection E as <-. eexists. split; [exact D|].
  split. { intros l cs c p El Hcs. injection El as <-. cbn in Hcs. repeat destruct Hcs as [Hcs | Hcs]; try discriminate; contradiction. }
  split; [reflexivity|]. split; [vm_compute; reflexivity|].
  split; [|split]; intros H; vm_compute in H; repeat match goal with K : NoDup (_ :: _) |- _ => inversion K; clear K; subst end;
    match goal with K : ~ In _ _ |- _ => apply K; cbn; tauto end.
Qed.
Print Assumptions C58_python_case_refuted.

(** If the package is called like a variable of a function, the function fails: here the
    parser of the graph. *)
Definition graph_package : jval :=
  obj [("name", txt "Shop"); ("description", txt "defines a shop.");
       ("py", obj [("module_name", txt "graph"); ("path_as", txt "str"); ("timezone_as", txt "str")]);
       ("properties", obj [("open", property [("type", txt "boolean")])])]%string.
Theorem C58_python_package_refuted : exists v s py,
  document_of s v /\ capital_plurals v /\ sc_py s = Some py /\ py_validate (sc_graph s) = Ok [] /\
  (forall globals, ~ python_right python37_keywords globals (py_parse_graph py (sc_graph s))).
Proof.
  destruct (schema_from_mapping (fun _ => true) true graph_package []) as [s|e] eqn:E; [|vm_compute in E; discriminate].
  exists graph_package, s. assert (D : document_of s graph_package) by (split; [apply wf_parts; vm_compute; reflexivity|eauto]).
  vm_compute in E. injection E as <-. eexists. split; [exact D|].
  split. { intros l cs c p El Hcs. injection El as <-. cbn in Hcs. repeat destruct Hcs as [Hcs | Hcs]; try discriminate; contradiction. }
  split; [reflexivity|]. split; [vm_compute; reflexivity|]. intros globals.
  apply (not_right _ _ _ 6 (Outer (s_ "graph")) (s_ "graph")).
  - eexists. vm_compute. reflexivity.
  - right. vm_compute. tauto.
  - vm_compute. discriminate.
Qed.
Print Assumptions C58_python_package_refuted.

(** The serializer of the graph confuses the registry and the instance of a class. *)
Definition confused : jval := with_py
  [("classes", JArr [plain_class "Target_foo" [("plural", txt "Foo_instance"); ("properties", obj [("text", property [("type", txt "string")])])]])]%string.
Theorem C58_python_registry_refuted : exists v s py,
  document_of s v /\ capital_plurals v /\ sc_py s = Some py /\ py_validate (sc_graph s) = Ok [] /\
  (forall globals, ~ python_right python37_keywords globals (py_serialize_graph py (sc_graph s))).
Proof.
  destruct (schema_from_mapping (fun _ => true) true confused []) as [s|e] eqn:E; [|vm_compute in E; discriminate].
  exists confused, s. assert (D : document_of s confused) by (split; [apply wf_parts; vm_compute; reflexivity|eauto]).
  vm_compute in E. injection E as <-. eexists. split; [exact D|].
  split.
  { intros l cs c p El Hcs Hc (m & -> & Hp). injection El as <-. cbn in Hcs. repeat destruct Hcs as [Hcs | Hcs]; try discriminate; try contradiction.
    injection Hcs as <-. cbn in Hc. repeat destruct Hc as [Hc | Hc]; try contradiction; injection Hc as <-.
    destruct Hp as [Hp | (Hno & _)]; [|exfalso; apply Hno; cbn; auto].
    cbn in Hp; repeat destruct Hp as [Hp | Hp]; try discriminate; try contradiction.
    injection Hp as <-. eexists _, _. split; [vm_compute; reflexivity|]. unfold capital. lia. }
  split; [reflexivity|]. split; [vm_compute; reflexivity|]. intros globals.
  apply (not_right _ _ _ 17 (For "target" (s_ "Target_foo")) (s_ "target_foo_instance")).
  - eexists. vm_compute. reflexivity.
  - right. vm_compute. tauto.
  - vm_compute. discriminate.
Qed.
Print Assumptions C58_python_registry_refuted.

(** It also confuses an instance and a serializer. *)
Definition calling : jval := with_py
  [("classes", JArr [plain_class "Serialize_foo" [("properties", obj [("text", property [("type", txt "string")])])];
                     plain_class "Foo_instance" [("properties", obj [("text", property [("type", txt "string")])])]])]%string.
Theorem C58_python_serializer_refuted : exists v s py,
  document_of s v /\ capital_plurals v /\ sc_py s = Some py /\ py_validate (sc_graph s) = Ok [] /\
  (forall globals, ~ python_right python37_keywords globals (py_serialize_graph py (sc_graph s))).
Proof.
  destruct (schema_from_mapping (fun _ => true) true calling []) as [s|e] eqn:E; [|vm_compute in E; discriminate].
  exists calling, s. assert (D : document_of s calling) by (split; [apply wf_parts; vm_compute; reflexivity|eauto]).
  vm_compute in E. injection E as <-. eexists. split; [exact D|].
  split.
  { intros l cs c p El Hcs Hc (m & -> & Hp). injection El as <-. cbn in Hcs. repeat destruct Hcs as [Hcs | Hcs]; try discriminate; try contradiction.
    injection Hcs as <-. cbn in Hc. repeat destruct Hc as [Hc | Hc]; try contradiction; injection Hc as <-;
      (destruct Hp as [Hp | (_ & n & Hp & ->)]; cbn in Hp; repeat destruct Hp as [Hp | Hp]; try discriminate; try contradiction;
       injection Hp as <-; eexists _, _; split; [vm_compute; reflexivity|]; unfold capital; lia). }
  split; [reflexivity|]. split; [vm_compute; reflexivity|]. intros globals.
  apply (not_right _ _ _ 38 (Outer (s_ "serialize_foo_instance")) (s_ "serialize_foo_instance")).
  - eexists. vm_compute. reflexivity.
  - right. vm_compute. tauto.
  - vm_compute. discriminate.
Qed.
Print Assumptions C58_python_serializer_refuted.
