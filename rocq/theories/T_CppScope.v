(** Theorems: the names in the generated C++ functions mean what they are meant to (C58). *)
From Coq Require Import String List Arith NArith ZArith Bool Lia.
From Verif Require Import Base M_Naming M_Schema M_Dec M_TypeGraph M_Walk M_Text M_Validate M_LangValid M_AutoID M_GoImports S_Scope M_Scope M_GoScope M_CppScope
  S_TypeGraph S_Conform S_Walk S_Validate S_GoImports S_LangValid
  P_Common P_Naming P_Walk P_Validate P_ValidateType P_ValidateDoc P_NoRaise P_ParseInv P_Parsed P_LangValid P_GoImports P_Scope P_PyScope P_BlockScope P_GoFunctions
  P_CppScope P_CppSerialize P_CppFunctions P_CppSource T_Validate T_LangValid T_EndToEnd T_GoImports T_Imports T_GoScope.
Import ListNotations.
Open Scope list_scope.
Local Open Scope nat_scope.

(** C58 for C++: the source defines nothing twice and hides nothing which it uses, and in the
    functions which parse and serialize each name means what it is meant to, among what is
    declared before: for all documents which pass the validations, if the few identifiers of
    [cpp_names_apart] differ. *)
Theorem C58_cpp_partial v s cpp :
  document_of s v -> capital_plurals v -> cpp_validate (sc_graph s) = Ok [] -> cpp_names_apart (cpp_spaces cpp) (sc_graph s) ->
  let g := sc_graph s in
  cpp_source_right (cpp_spaces cpp) (cpp_types g) (cpp_header g) (cpp_items cpp g).
Proof.
  intros Hd Hcap Hv Hapart g. fold g in Hapart, Hv.
  assert (HR := document_resolved _ _ Hd). fold g in HR.
  assert (HN : NoDup (map c_name (g_classes g))).
  { destruct Hd as (Hw & re_ok & ordered & ref & H). destruct (C33_accepted_schemas _ _ _ _ _ Hw H) as (Hn & _ & _).
    inversion Hn as [|? ? _ Hn']; subst. now apply NoDup_app_parts in Hn'. }
  assert (Hplural : forall c, In c (g_classes g) -> capital_name (c_plural c)).
  { intros c Hc. destruct (graph_plurals _ _ c Hd Hcap Hc) as (a & r & E & Ha). exists a, r. split; [exact E|now apply upper_capital]. }
  assert (Hname : forall n, In n (structure_names g) -> capital_name n).
  { intros n Hn. destruct (graph_names _ _ n Hd Hn) as (a & r & E & Ha). exists a, r. split; [exact E|now apply upper_capital]. }
  assert (HA : graph_apart camel_composite g).
  { destruct Hapart as [Hgraph _]. intros n i Hn [_ Hi] [_ Hj]. exact (Hgraph n i Hn Hi Hj). }
  destruct (C38_no_clash_partial g HA Hv) as [(ns & F1 & N1 & K1) (_ & _ & Hu)].
  apply usable_part in Hu. destruct Hu as [_ Hu]. apply usable_lower in Hu.
  assert (Hcname : forall n, In n (structure_names g) -> exists i, upper_camel n i).
  { intros n Hn. destruct (Forall2_In_l _ _ _ F1 _ Hn) as (i & _ & [_ Hi]). now exists i. }
  assert (Htypes : NoDup (map ucamel (structure_names g))).
  { replace (map ucamel (structure_names g)) with ns; [exact N1|]. clear -F1. unfold structure_names.
    induction F1 as [|n i l ns [_ H] _ IH]; [reflexivity|]. cbn [map]. now rewrite (ucamel_right _ _ H), IH. }
  now apply cpp_source_is_right.
Qed.
Print Assumptions C58_cpp_partial.

(** ** An example *)

(** Articles in boxes, whose sizes refer to articles; with arrays, maps, patterns, durations and
    dates. *)
Definition some_cpp : cpp_conf :=
  {| cc_namespace := s_ "some::shop"; cc_path_as := s_ "std::filesystem::path"; cc_optional_as := s_ "std::optional";
     cc_datetime_library := s_ "ctime"; cc_indention := s_ "  " |}.
Definition dated_boxes : jval := shop_with
  [("classes", JArr [plain_class "Article" [("id_pattern", txt "^[a-z]+$"); ("properties", obj [("size", property [("type", txt "Size")])])];
                     plain_class "Big_box" [("plural", txt "Big_boxes"); ("id_pattern", txt "^[0-9]+$");
                                            ("properties", obj [("content", property [("type", txt "map"); ("values", obj [("type", txt "Article")])])])]]);
   ("embeds", JArr [plain_class "Size" [("properties", obj [("like", property [("type", txt "Article"); ("optional", JBool true)])])]]);
   ("properties", obj [("rented", property [("type", txt "array"); ("values", obj [("type", txt "duration")])]); ("opened", property [("type", txt "date")])])]%string.

Lemma not_numbered stem k x : begins stem x = false -> x <> stem ++ dec_nat k.
Proof. intros H ->. now rewrite begins_app in H. Qed.

Example C58_cpp_nontrivial : exists s,
  document_of s dated_boxes /\ capital_plurals dated_boxes /\ cpp_validate (sc_graph s) = Ok [] /\
  cpp_names_apart (cpp_spaces some_cpp) (sc_graph s) /\ cpp_spaces some_cpp = map s_ ["some"; "shop"; "jsoncpp"]%string /\
  cpp_types (sc_graph s) = map s_ ["Shop"; "Article"; "BigBox"; "Size"]%string /\
  map entity_name (map fst (cpp_items some_cpp (sc_graph s))) =
    map s_ ["message"; "re"; "article_re"; "big_box_re"; "duration_from_string"; "value_type_to_string"; "shop_from"; "tm_to_string"; "duration_to_string";
            "article_from"; "big_box_from"; "size_from"; "serialize_article"; "serialize_big_box"; "serialize_size"; "serialize_shop"]%string.
Proof.
  by_document dated_boxes s D. eexists. split; [exact D|]. split; [plurals_capital|]. split; [vm_compute; reflexivity|].
  split; [|repeat split; vm_compute; reflexivity].
  match goal with |- cpp_names_apart _ (sc_graph ?s) => set (g := sc_graph s) end.
  assert (Hnames : forall n, In n (structure_names g) -> In n (map s_ ["Shop"; "Article"; "Big_box"; "Size"]%string)) by (intros n Hn; exact Hn).
  unfold cpp_names_apart. repeat match goal with |- _ /\ _ => split end.
  - intros n i Hn Hi Hj. apply ucamel_upper in Hi, Hj. vm_compute in Hn. rewrite <- Hi in Hj. repeat (destruct Hn as [<-|Hn]; [vm_compute in Hj; discriminate Hj|]). destruct Hn.
  - intros n Hn Hj. apply ucamel_upper in Hj. apply Hnames in Hn. cbn in Hn. repeat (destruct Hn as [<-|Hn]; [vm_compute in Hj; discriminate Hj|]). destruct Hn.
  - intros n Hn. apply Hnames in Hn. split; [|split].
    + intros H. apply mem_In in H. cbn in Hn. repeat (destruct Hn as [<-|Hn]; [vm_compute in H; discriminate H|]). destruct Hn.
    + intros stem k Hs. apply not_numbered. cbn in Hn, Hs.
      repeat (destruct Hn as [<-|Hn]; [repeat (destruct Hs as [<-|Hs]; [reflexivity|]); destruct Hs|]). destruct Hn.
    + intros m Hm. assert (B : begins (s_ "serialize_") (lower n) = false /\ begins (s_ "serialize_") (lower n ++ s_ "_as_value") = false).
      { cbn in Hn. repeat (destruct Hn as [<-|Hn]; [split; reflexivity|]). destruct Hn. }
      destruct B as [B1 B2]. unfold cpp_serialized_as. split; intros E; [rewrite E, begins_app in B1|rewrite E, begins_app in B2]; discriminate.
  - vm_compute. discriminate.
  - intros c Hc. vm_compute in Hc. destruct Hc as [<-|[<-|[]]]; repeat split; vm_compute; discriminate.
  - vm_compute. repeat constructor; cbn; intuition discriminate.
  - intros c n Hc _ Hn E. assert (B : begins (s_ "serialize_") (lower (c_name c) ++ s_ "_re") = false).
    { vm_compute in Hc. destruct Hc as [<-|[<-|[]]]; reflexivity. }
    unfold cpp_serialized_as in E. rewrite E, begins_app in B. discriminate.
  - intros x Hx H. apply mem_In in H. vm_compute in Hx. repeat (destruct Hx as [<-|Hx]; [vm_compute in H; discriminate H|]). destruct Hx.
Qed.

(** ** What the validations do not notice *)

(** A class whose name is a keyword in lower case: it is the parameter of the serializer. *)
Definition switches : jval := shop_with [("classes", JArr [plain_class "Switch" [("plural", txt "Switches")]])]%string.
Theorem C58_cpp_keyword_refuted : exists v s,
  document_of s v /\ capital_plurals v /\ cpp_validate (sc_graph s) = Ok [] /\
  forall cpp, ~ cpp_source_right (cpp_spaces cpp) (cpp_types (sc_graph s)) (cpp_header (sc_graph s)) (cpp_items cpp (sc_graph s)).
Proof.
  exists switches. by_document switches s D. eexists. split; [exact D|]. split; [plurals_capital|]. split; [vm_compute; reflexivity|].
  intros cpp (_ & _ & _ & _ & _ & _ & _ & H). revert H.
  match goal with |- context[cpp_items cpp (sc_graph ?s)] => set (g := sc_graph s) end. intros H.
  assert (E : exists before after, cpp_items cpp g = before ++ (serialize_entity (s_ "Switch"), Some (cpp_serializer cpp (s_ "Switch") [])) :: after).
  { apply in_split. unfold cpp_items. rewrite !in_app_iff. do 8 right. left. now left. }
  destruct E as (before & after & E). apply H in E. revert E. apply not_block_right. vm_compute. reflexivity.
Qed.
Print Assumptions C58_cpp_keyword_refuted.

(** A structure which is called like the library. *)
Definition jsons : jval := shop_with [("classes", JArr [plain_class "Json" []])]%string.
Theorem C58_cpp_library_refuted : exists v s,
  document_of s v /\ capital_plurals v /\ cpp_validate (sc_graph s) = Ok [] /\
  forall cpp, ~ cpp_source_right (cpp_spaces cpp) (cpp_types (sc_graph s)) (cpp_header (sc_graph s)) (cpp_items cpp (sc_graph s)).
Proof.
  exists jsons. by_document jsons s D. eexists. split; [exact D|]. split; [plurals_capital|]. split; [vm_compute; reflexivity|].
  intros cpp (_ & H & _). apply (H (s_ "Json")); apply mem_In; vm_compute; reflexivity.
Qed.
Print Assumptions C58_cpp_library_refuted.

(** Two classes whose names differ only in case: the namespace of the pattern is the same, and
    the constant in it is defined twice. *)
Definition someurls : jval := shop_with
  [("classes", JArr [plain_class "SomeUrl" [("id_pattern", txt "^a$")]; plain_class "Someurl" [("plural", txt "Others"); ("id_pattern", txt "^b$")]])]%string.
Theorem C58_cpp_case_refuted : exists v s,
  document_of s v /\ capital_plurals v /\ cpp_validate (sc_graph s) = Ok [] /\
  forall cpp, ~ cpp_source_right (cpp_spaces cpp) (cpp_types (sc_graph s)) (cpp_header (sc_graph s)) (cpp_items cpp (sc_graph s)).
Proof.
  exists someurls. by_document someurls s D. eexists. split; [exact D|]. split; [plurals_capital|]. split; [vm_compute; reflexivity|].
  intros cpp (_ & _ & _ & H & _). revert H.
  match goal with |- context[cpp_items cpp (sc_graph ?s)] => set (g := sc_graph s) end.
  assert (E : exists rest, map fst (cpp_items cpp g) = [Overload (s_ "message") []] ++ Within (s_ "someurl_re") (s_ "kID") :: [] ++ Within (s_ "someurl_re") (s_ "kID") :: rest).
  { unfold cpp_items. replace (cpp_ctime cpp && cpp_needs_date g) with false by (destruct (cpp_ctime cpp); reflexivity). eexists. vm_compute. reflexivity. }
  destruct E as (rest & ->). intros H. apply NoDup_remove_2 in H. apply H. right. now left.
Qed.
Print Assumptions C58_cpp_case_refuted.

(** The registry called [Instance]: its variable is hidden while the graph is parsed. *)
Definition instances : jval := shop_with [("classes", JArr [plain_class "Some" [("plural", txt "Instance")]])]%string.
Theorem C58_cpp_registry_refuted : exists v s,
  document_of s v /\ capital_plurals v /\ cpp_validate (sc_graph s) = Ok [] /\
  forall cpp globals, ~ block_right cpp_keywords globals (cpp_parse_graph cpp (sc_graph s)).
Proof.
  exists instances. by_document instances s D. eexists. split; [exact D|]. split; [plurals_capital|]. split; [vm_compute; reflexivity|].
  intros cpp. apply not_block_right. vm_compute. reflexivity.
Qed.
Print Assumptions C58_cpp_registry_refuted.

(** The graph is called like the registry of a class: while the graph is serialized, the
    variable of the result is hidden by that of the registry. *)
Definition the_shops : jval :=
  obj [("name", txt "Shops"); ("description", txt "defines shops."); ("classes", JArr [plain_class "Shop" []])]%string.
Theorem C58_cpp_result_refuted : exists v s,
  document_of s v /\ capital_plurals v /\ cpp_validate (sc_graph s) = Ok [] /\
  forall cpp globals, ~ block_right cpp_keywords globals (cpp_serialize_graph cpp (sc_graph s)).
Proof.
  exists the_shops. by_document the_shops s D. eexists. split; [exact D|]. split; [plurals_capital|]. split; [vm_compute; reflexivity|].
  intros cpp. apply not_block_right. vm_compute. reflexivity.
Qed.
Print Assumptions C58_cpp_result_refuted.

(** The namespace is not checked at all. *)
Definition in_class : jval := obj
  [("name", txt "Shop"); ("description", txt "defines a shop.");
   ("cpp", obj [("namespace", txt "some::class"); ("path_as", txt "boost::filesystem::path"); ("optional_as", txt "std::optional");
                ("datetime_library", txt "date.h")])]%string.
Theorem C58_cpp_namespace_refuted : exists v s cpp,
  document_of s v /\ capital_plurals v /\ cpp_validate (sc_graph s) = Ok [] /\ sc_cpp s = Some cpp /\
  ~ cpp_source_right (cpp_spaces cpp) (cpp_types (sc_graph s)) (cpp_header (sc_graph s)) (cpp_items cpp (sc_graph s)).
Proof.
  exists in_class. by_document in_class s D. eexists _, _. split; [exact D|].
  split. { intros l cs c p El Hcs. injection El as <-. cbn in Hcs. repeat destruct Hcs as [Hcs | Hcs]; try discriminate; contradiction. }
  split; [vm_compute; reflexivity|]. split; [reflexivity|].
  intros (_ & _ & H & _). apply (H (s_ "class")); apply mem_In; vm_compute; reflexivity.
Qed.
Print Assumptions C58_cpp_namespace_refuted.
