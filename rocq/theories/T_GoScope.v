(** Theorems: the names in the generated Go functions mean what they are meant to (C58), and
    whether the variables are used (C59). *)
From Coq Require Import String List Arith NArith ZArith Bool Lia.
From Verif Require Import Base M_Naming M_Schema M_Dec M_TypeGraph M_Walk M_GoImports M_Text M_Strftime M_Validate M_LangValid M_AutoID M_Scope M_GoScope
  S_TypeGraph S_Conform S_Walk S_Strftime S_Validate S_GoImports S_LangValid S_Scope
  P_Common P_Naming P_Walk P_Validate P_ValidateType P_ValidateDoc P_NoRaise P_ParseInv P_Parsed P_LangValid P_GoImports P_Scope P_PyScope P_BlockScope P_GoScope P_GoFunctions P_GoTime P_GoUses T_Validate T_LangValid T_EndToEnd T_GoImports T_Imports.
Import ListNotations.
Open Scope list_scope.
Local Open Scope nat_scope.

Lemma graph_names v s n : document_of s v -> In n (structure_names (sc_graph s)) -> S_Validate.starts capital n.
Proof.
  intros (Hw & re_ok & ordered & ref & H) Hn. assert (Hd := accepted_describes _ _ _ _ _ Hw H). destruct (accepted_document _ _ _ _ _ Hw H) as [Hdoc _].
  destruct Hd as [Hd _]. set (g := sc_graph s) in *.
  destruct Hdoc as [l nm classes embeds cns ens Hkeys Horder Hname Hcap Hdesc Hcpp Hgo Hpy Hcl Hem Hcns Hens Hnd Hcok Heok Hprops Hpl].
  destruct Hd as (l' & cs & es & [= <-] & A1 & A2 & A3 & A4 & A5 & A6 & A7 & A8 & A9 & A10). fold g in A1, A6, A7, A8, A9.
  assert (Hw' := Hw). apply wf_obj in Hw'. destruct Hw' as [Hnk Hwl].
  assert (E1 := unique l Hnk _ _ _ A1 Hname). injection E1 as E1.
  assert (E2 := list_under_unique l _ _ _ Hnk A4 Hcl). assert (E3 := list_under_unique l _ _ _ Hnk A5 Hem). subst cs es.
  assert (W1 := elements_wf l _ _ Hw Hcl). assert (W2 := elements_wf l _ _ Hw Hem).
  destruct Hn as [<-|Hn].
  - rewrite E1. exact Hcap.
  - apply in_app_or in Hn as [Hn|Hn]; apply in_map_iff in Hn as (x & <- & Hx).
    + destruct (all_nth _ _ _ A6 A8 x Hx) as (i & d & Hdi & _ & fs & -> & Hm & _). apply nth_error_In in Hdi.
      destruct (Hcok _ Hdi) as (l' & E & _ & (a & Ha & t & Et & Hid) & _). injection E as <-. subst a.
      assert (Wfs := W1 _ Hdi). apply wf_obj in Wfs as [Nfs _]. assert (E := unique fs Nfs _ _ _ Hm Ha). injection E as E. rewrite E.
      destruct Hid as [(c & r & -> & Hc & _)|(q & -> & c & r & -> & Hc & _)]; [now exists c, r|now exists c, (r ++ [10%N])].
    + destruct (all_nth _ _ _ A7 A9 x Hx) as (i & d & Hdi & _ & fs & -> & Hm & _). apply nth_error_In in Hdi.
      destruct (Heok _ Hdi) as (l' & E & _ & (a & Ha & t & Et & Hid) & _). injection E as <-. subst a.
      assert (Wfs := W2 _ Hdi). apply wf_obj in Wfs as [Nfs _]. assert (E := unique fs Nfs _ _ _ Hm Ha). injection E as E. rewrite E.
      exact Hid.
Qed.

(** C58 for Go: whatever the package declares is declared once and hides neither what is
    predeclared nor what is imported, and in the functions which parse and serialize each name
    means what it is meant to: for all documents which pass the validations, if the few
    identifiers of [go_names_apart] differ. *)
Theorem C58_go_partial v s :
  document_of s v -> capital_plurals v -> go_validate (sc_graph s) = Ok [] -> go_names_apart (sc_graph s) ->
  let g := sc_graph s in
  go_source_right (go_declared g) (from_jsonable_imports g) (go_parsers g) /\
  go_source_right (go_declared g) (to_jsonable_imports g) (go_serializers g).
Proof.
  intros Hd Hcap Hv (Hapart & Hres & (ids & Hids & HNids) & Hti) g. fold g in Hapart, Hres, Hids, Hti, Hv.
  assert (HR := document_resolved _ _ Hd). fold g in HR.
  assert (HN : NoDup (map c_name (g_classes g))).
  { destruct Hd as (Hw & re_ok & ordered & ref & H). destruct (C33_accepted_schemas _ _ _ _ _ Hw H) as (Hn & _ & _).
    inversion Hn as [|? ? _ Hn']; subst. now apply NoDup_app_parts in Hn'. }
  assert (Hplural : forall c, In c (g_classes g) -> capital_name (c_plural c)).
  { intros c Hc. destruct (graph_plurals _ _ c Hd Hcap Hc) as (a & r & E & Ha). exists a, r. split; [exact E|now apply upper_capital]. }
  assert (Hname : forall n, In n (structure_names g) -> capital_name n).
  { intros n Hn. destruct (graph_names _ _ n Hd Hn) as (a & r & E & Ha). exists a, r. split; [exact E|now apply upper_capital]. }
  destruct (C37_no_clash_partial g Hapart Hv) as [(ns & F1 & N1 & K1) (_ & _ & (fs & F2 & N2 & K2))].
  assert (Hcname : forall n, In n (structure_names g) -> exists i, upper_camel n i).
  { intros n Hn. destruct (Forall2_In_l _ _ _ F1 _ Hn) as (i & _ & Hi). now exists i. }
  assert (Hcplural : forall c, In c (g_classes g) -> exists i, upper_camel (c_plural c) i).
  { intros c Hc. destruct (Forall2_In_l _ _ _ F2 (c_plural c)) as (i & _ & Hi); [apply in_or_app; right; now apply in_map|]. now exists i. }
  assert (Htypes : NoDup (map ucamel (structure_names g))).
  { replace (map ucamel (structure_names g)) with ns; [exact N1|]. clear -F1. unfold structure_names.
    induction F1 as [|n i l ns H _ IH]; [reflexivity|]. cbn [map]. now rewrite (ucamel_right _ _ H), IH. }
  assert (HNplural : NoDup (map camel (map c_plural (g_classes g)))).
  { replace (map camel (map c_plural (g_classes g))) with ids; [exact HNids|]. clear -Hids.
    induction Hids as [|n i l ids H _ IH]; [reflexivity|]. cbn [map]. now rewrite (camel_right _ _ H), IH. }
  assert (Hsource : forall imported functions, incl imported go_packages ->
    (forall f, In f functions -> block_right go_keywords (go_globals g imported) f) -> go_source_right (go_declared g) imported functions).
  { intros imported functions Hi Hf. split; [apply go_declared_NoDup; assumption|]. split; [intros x Hx; apply (declared_fresh g); assumption|].
    split; [intros x Hx; eapply imported_fresh; eauto|exact Hf]. }
  assert (Hdecl : forall l p, In p (import_declarations l) <-> In p l) by (intros l p; apply import_declarations_exact).
  assert (HI1 : incl (from_jsonable_imports g) go_packages).
  { intros x Hx. unfold from_jsonable_imports in Hx. apply (proj1 (Hdecl _ _)) in Hx. cbn. rewrite !in_app_iff in Hx. unfold when in Hx.
    repeat match type of Hx with context[if ?b then _ else _] => destruct b end; cbn in Hx; tauto. }
  assert (HI2 : incl (to_jsonable_imports g) go_packages).
  { intros x Hx. unfold to_jsonable_imports in Hx. apply (proj1 (Hdecl _ _)) in Hx. cbn. rewrite !in_app_iff in Hx. unfold when in Hx.
    repeat match type of Hx with context[if ?b then _ else _] => destruct b end; cbn in Hx; tauto. }
  split; apply Hsource; [exact HI1| |exact HI2|].
  - apply go_parsers_right; try assumption.
    + apply (proj2 (Hdecl _ _)). now left.
    + apply (proj2 (Hdecl _ _)). right. now left.
    + intros t ref x HV Hx. apply (proj2 (Hdecl _ _)). rewrite !in_app_iff, !In_when.
      assert (P : forall (P : ty -> bool), P t = true -> some_type g P) by (intros P HP; exists t, ref; now split).
      destruct t; cbn in Hx; try contradiction; destruct Hx as [<-|[]].
      * right. left. split; [|now left]. apply needs_integer; auto.
      * right. right. left. split; [|now left]. apply needs_dated; auto.
      * right. right. left. split; [|now left]. apply needs_dated; auto.
      * right. right. left. split; [|now left]. apply needs_dated; auto.
      * right. right. left. split; [|now left]. apply needs_dated; auto.
      * do 3 right. left. split; [apply needs_duration; auto|right; now left].
      * do 5 right. split; [|now left]. apply iterate_some. auto.
  - apply go_serializers_right; try assumption.
    + intros Hc. apply (proj2 (Hdecl _ _)). apply in_or_app. left. destruct (g_classes g); [congruence|]. now left.
    + intros c Hc. destruct (Hcplural c Hc) as (i & Hi). destruct (Hcname (c_name c) ltac:(now apply class_structure)) as (i' & Hi').
      apply camel_upper in Hi' as (j & Hj). rewrite (ucamel_right _ _ Hi), (camel_right _ _ Hj). now apply (Hti c).
Qed.
Print Assumptions C58_go_partial.

(** ** An example *)

(** Articles in boxes, whose sizes refer to articles; with arrays, maps, patterns, durations. *)
Definition shop_with (parts : list (string * jval)) : jval :=
  obj (("name", txt "Shop") :: ("description", txt "defines a shop.") :: parts)%string.
Definition go_shop : jval := shop_with
  [("classes", JArr [plain_class "Article" [("id_pattern", txt "^[a-z]+$"); ("properties", obj [("size", property [("type", txt "Size")])])];
                     plain_class "Big_box" [("plural", txt "Big_boxes"); ("properties", obj [("content", property [("type", txt "map"); ("values", obj [("type", txt "Article")])])])]]);
   ("embeds", JArr [plain_class "Size" [("properties", obj [("like", property [("type", txt "Article"); ("optional", JBool true)])])]]);
   ("properties", obj [("rented", property [("type", txt "array"); ("values", obj [("type", txt "duration")])])])]%string.

Ltac plurals_capital :=
  let l := fresh in let cs := fresh in let c := fresh in let p := fresh in let El := fresh in let Hcs := fresh in let Hc := fresh in let m := fresh in let Hp := fresh in let n := fresh in
  intros l cs c p El Hcs Hc (m & -> & Hp); injection El as <-; cbn in Hcs; repeat destruct Hcs as [Hcs | Hcs]; try discriminate; try contradiction;
  injection Hcs as <-; cbn in Hc; repeat destruct Hc as [Hc | Hc]; try contradiction; injection Hc as <-;
  destruct Hp as [Hp | (Hno & n & Hp & ->)];
  try (exfalso; apply Hno; cbn; solve [auto 6]);
  cbn in Hp; repeat destruct Hp as [Hp | Hp]; try discriminate; try contradiction;
  injection Hp as <-; eexists _, _; (split; [vm_compute; reflexivity|unfold capital; lia]).
Ltac by_document v s D :=
  let e := fresh in let E := fresh in
  destruct (schema_from_mapping (fun _ => true) true v []) as [s|e] eqn:E; [|vm_compute in E; discriminate];
  assert (D : document_of s v) by (split; [apply wf_parts; vm_compute; reflexivity|eauto]);
  vm_compute in E; injection E as <-.

Example C58_go_nontrivial : exists s,
  document_of s go_shop /\ capital_plurals go_shop /\ go_validate (sc_graph s) = Ok [] /\ go_names_apart (sc_graph s) /\
  go_declared (sc_graph s) = map s_ ["Size"; "Article"; "BigBox"; "Shop"; "Error"; "Errors"; "NewErrors"; "durationFromString"; "pattern0";
    "ArticleFromJSONable"; "BigBoxFromJSONable"; "SizeFromJSONable"; "ShopFromJSONable";
    "durationToString"; "ArticleToJSONable"; "BigBoxToJSONable"; "SizeToJSONable"; "ShopToJSONable"]%string /\
  map (fun f => map snd (fn_params f)) (go_parsers (sc_graph s)) =
    map (map s_) [["value"; "id"; "articlesRegistry"; "ref"; "target"; "errors"]; ["value"; "id"; "articlesRegistry"; "ref"; "target"; "errors"];
                  ["value"; "articlesRegistry"; "ref"; "target"; "errors"]; ["value"; "ref"; "target"; "errors"]]%string.
Proof.
  by_document go_shop s D. eexists. split; [exact D|]. split; [plurals_capital|]. split; [vm_compute; reflexivity|].
  split; [|split; vm_compute; reflexivity]. split; [|split; [|split]].
  - intros n i Hn Hi Hj. apply ucamel_upper in Hi, Hj. vm_compute in Hn. rewrite <- Hi in Hj. repeat (destruct Hn as [<-|Hn]; [vm_compute in Hj; discriminate Hj|]). destruct Hn.
  - intros n i Hn Hi [H|(m & j & Hm & Hj & H)]; apply ucamel_upper in Hi; [|apply ucamel_upper in Hj];
      vm_compute in Hn; repeat (destruct Hn as [<-|Hn]; [vm_compute in Hi; injection Hi as <-|]); try (destruct Hn);
      try (apply mem_In in H; vm_compute in H; discriminate);
      vm_compute in Hm; repeat (destruct Hm as [<-|Hm]; [vm_compute in Hj; injection Hj as <-; destruct H as [H|H]; vm_compute in H; discriminate|]); destruct Hm.
  - exists [s_ "articles"; s_ "bigBoxes"]. split; [|repeat constructor; vm_compute; intuition discriminate].
    constructor; [|constructor; [|constructor]].
    + exists (s_ "Articles"), []. split; [reflexivity|]. split; [|reflexivity]. intros q [<-|[]]. split; [discriminate|vm_compute; intuition discriminate].
    + exists (s_ "Big"), [s_ "boxes"]. split; [reflexivity|]. split; [|reflexivity]. intros q [<-|[<-|[]]]; (split; [discriminate|vm_compute; intuition discriminate]).
  - intros c i j Hc Hi Hj. apply ucamel_upper in Hi. apply camel_lower in Hj. vm_compute in Hc. destruct Hc as [<-|[<-|[]]]; vm_compute in Hi, Hj; injection Hi as <-; injection Hj as <-; discriminate.
Qed.

(** ** What the validations do not notice *)

(** The plurals of two classes which differ in the case of their first parts give one
    variable in the parser of the graph, where it is declared twice. *)
Definition urls : jval := shop_with
  [("classes", JArr [plain_class "Some" [("plural", txt "URLs")]; plain_class "Other" [("plural", txt "Urls")]])]%string.
Theorem C58_go_case_refuted : exists v s,
  document_of s v /\ capital_plurals v /\ go_validate (sc_graph s) = Ok [] /\
  forall globals, ~ block_right go_keywords globals (go_parse_graph (sc_graph s)).
Proof.
  exists urls. by_document urls s D. eexists. split; [exact D|]. split; [plurals_capital|]. split; [vm_compute; reflexivity|].
  apply not_block_right. vm_compute. reflexivity.
Qed.
Print Assumptions C58_go_case_refuted.

(** The registry and the instance of a class get one name in the serializer of the graph. *)
Definition hidden : jval := shop_with [("classes", JArr [plain_class "Target_foo" [("plural", txt "FooInstance")]])]%string.
Theorem C58_go_registry_refuted : exists v s,
  document_of s v /\ capital_plurals v /\ go_validate (sc_graph s) = Ok [] /\
  forall globals, ~ block_right go_keywords globals (go_serialize_graph (sc_graph s)).
Proof.
  exists hidden. by_document hidden s D. eexists. split; [exact D|]. split; [plurals_capital|]. split; [vm_compute; reflexivity|].
  apply not_block_right. vm_compute. reflexivity.
Qed.
Print Assumptions C58_go_registry_refuted.

(** * Variables which are not used (C59) *)

(** The compiler accepts no variable which is declared, but not used.  The functions which parse
    use their variables, unless the graph has neither classes nor properties. *)
Theorem C59_parsers g :
  (forall f, In f (go_parsers g) -> go_uses_variables f) <-> g_classes g <> [] \/ g_props g <> [].
Proof.
  split; [|intros H f; now apply parsers_use].
  intros H. destruct (g_classes g) as [|c l] eqn:Ec; [|left; discriminate]. destruct (g_props g) as [|p ps] eqn:Ep; [|right; discriminate].
  exfalso. assert (Hg : In (go_parse_graph g) (go_parsers g)) by (unfold go_parsers; rewrite !in_app_iff; right; right; now left).
  apply H, all_read_none in Hg. cbn [go_parse_graph fn_body] in Hg. rewrite Ec, Ep in Hg. vm_compute in Hg. discriminate.
Qed.
Print Assumptions C59_parsers.

(** The functions which serialize use theirs, if the formats are not empty and have no line
    breaks other than the line feed between lines. *)
Theorem C59_serializers_partial v s :
  document_of s v -> go_validate (sc_graph s) = Ok [] ->
  (forall t ref f, value_type (sc_graph s) t ref -> has_format t f -> f <> [] /\ lf_separated f) ->
  forall f, In f (go_serializers (sc_graph s)) -> go_uses_variables f.
Proof.
  intros Hd Hv Hf. apply C37_no_errors_partial in Hv as [_ Hu]. intros f. apply serializers_use. intros ps p Hps Hp. apply laid_out_inside.
  intros n u fm Hin Hfm. destruct (composites_composite _ _ Hps) as (r & Hc).
  assert (HV : value_type (sc_graph s) u (r ++ s_ "/" ++ p_name p ++ levels n)) by (apply (value_type_at _ _ _ r ps p n); [exact Hc|exact Hp|exact Hin|reflexivity]).
  destruct (Hf _ _ _ HV Hfm) as [Hne Hlf]. destruct (Hu _ _ _ HV Hfm) as [HF _].
  unfold M_GoGen.layout. rewrite (convert_lf fm HF Hlf). now apply conv_nonempty.
Qed.
Print Assumptions C59_serializers_partial.

(** The shop meets the hypotheses, with dates in its arrays. *)
Definition dated_shop : jval := shop_with
  [("classes", JArr [plain_class "Article" [("properties", obj [("days", property [("type", txt "array"); ("values", obj [("type", txt "date")])])])]]);
   ("properties", obj [("opened", property [("type", txt "map"); ("values", obj [("type", txt "datetime")])])])]%string.
Example C59_nontrivial : exists s,
  document_of s dated_shop /\ go_validate (sc_graph s) = Ok [] /\ g_classes (sc_graph s) <> [] /\
  (forall t ref f, value_type (sc_graph s) t ref -> has_format t f -> f <> [] /\ lf_separated f) /\
  exists t ref f, value_type (sc_graph s) t ref /\ has_format t f.
Proof.
  by_document dated_shop s D. eexists. split; [exact D|]. split; [vm_compute; reflexivity|]. split; [vm_compute; discriminate|].
  match goal with |- context[sc_graph ?s] => set (g := sc_graph s) end.
  split.
  - intros t ref f HV Hf. apply iterate_spec in HV. vm_compute in HV.
    repeat (destruct HV as [HV|HV]; [apply (f_equal fst) in HV; cbn [fst] in HV; subst t; destruct Hf as [Hf|[Hf|Hf]]; try discriminate Hf; injection Hf as <-; (split; [discriminate|split; reflexivity])|]). destruct HV.
  - exists (TDate (s_ "%Y-%m-%d")), (s_ "/classes/0/days/values"), (s_ "%Y-%m-%d"). split; [|now left].
    apply iterate_spec. vm_compute. tauto.
Qed.

(** An accepted graph with neither classes nor properties: the parser of the graph does not use
    its variable [cast]. *)
Theorem C59_empty_graph_refuted : exists v s,
  document_of s v /\ capital_plurals v /\ go_validate (sc_graph s) = Ok [] /\ ~ go_uses_variables (go_parse_graph (sc_graph s)).
Proof.
  exists (shop_with []). by_document (shop_with []) s D. eexists. split; [exact D|].
  split. { intros l cs c p El Hcs. injection El as <-. cbn in Hcs. repeat destruct Hcs as [Hcs | Hcs]; try discriminate; contradiction. }
  split; [vm_compute; reflexivity|]. intros H. apply all_read_none in H. vm_compute in H. discriminate.
Qed.
Print Assumptions C59_empty_graph_refuted.

(** The format of a datetime may be empty; then the serializer of an array does not use its
    elements. *)
Definition empty_format : jval := shop_with
  [("properties", obj [("opened", property [("type", txt "array"); ("values", obj [("type", txt "datetime"); ("format", txt "")])])])]%string.
Theorem C59_empty_format_refuted : exists v s,
  document_of s v /\ capital_plurals v /\ go_validate (sc_graph s) = Ok [] /\ ~ go_uses_variables (go_serialize_graph (sc_graph s)).
Proof.
  exists empty_format. by_document empty_format s D. eexists. split; [exact D|].
  split. { intros l cs c p El Hcs. injection El as <-. cbn in Hcs. repeat destruct Hcs as [Hcs | Hcs]; try discriminate; contradiction. }
  split; [vm_compute; reflexivity|]. intros H. apply all_read_none in H. vm_compute in H. discriminate.
Qed.
Print Assumptions C59_empty_format_refuted.
