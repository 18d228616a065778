(** Theorems: the types in the generated Go functions fit (C60), and so do the formats of
    their messages (C61). *)
From Coq Require Import String List Arith NArith ZArith Bool Lia.
From Verif Require Import Base M_Naming M_Schema M_Dec M_TypeGraph M_Walk M_GoImports M_Text M_GoGen M_Strftime M_Validate M_LangValid M_AutoID M_Scope M_GoScope
  S_TypeGraph S_Conform S_Walk S_Strftime S_Validate S_GoImports S_LangValid S_Scope
  P_Common P_TypeGraph P_Naming P_Walk P_Validate P_ValidateType P_ValidateDoc P_NoRaise P_ParseInv P_Parsed P_LangValid P_GoImports P_Scope P_PyScope P_BlockScope P_GoScope P_GoFunctions P_GoTime P_GoUses T_Validate T_LangValid T_EndToEnd T_GoImports T_Imports T_GoScope
  S_GoTyping M_GoTyping P_GoTyping P_GoPackage.
Import ListNotations.
Open Scope list_scope.
Local Open Scope nat_scope.

(** The functions of the package are those whose names C58 is about. *)
Lemma function_names g vet :
  keys (pk_functions (go_package g vet)) =
    (if graph_needs g (KPrim PDuration) then [s_ "durationFromString"; s_ "durationToString"] else []) ++
    map go_from (map c_name (g_classes g) ++ map e_name (g_embeds g) ++ [g_name g]) ++
    map go_to (map c_name (g_classes g) ++ map e_name (g_embeds g) ++ [g_name g]).
Proof.
  assert (F : forall {A B} (f : A -> B) (l : list A) k, map (fun ck => f (fst ck)) (combine l (List.seq k (length l))) = map f l).
  { intros A B f l. induction l as [|a l IH]; intros k; [reflexivity|]. cbn [length List.seq combine map fst]. now rewrite IH. }
  unfold go_package, go_functions, parser_functions, serializer_functions, keys. cbn [pk_functions]. rewrite !map_app, !map_map. f_equal.
  - unfold go_duration_functions. now destruct (graph_needs g (KPrim PDuration)).
  - cbn [map fst gf_name parse_composite_code parse_graph_code serializer_code serialize_graph_code]. unfold numbered_classes, numbered_embeds.
    rewrite (F _ _ (fun c => go_from (c_name c))), (F _ _ (fun e => go_from (e_name e))). reflexivity.
Qed.
Lemma struct_names g : keys (go_structs g) = go_type_names g.
Proof. unfold go_structs, go_type_names, keys. rewrite !map_app, !map_map. reflexivity. Qed.

Lemma ucamel_all ns ids : Forall2 upper_camel ns ids -> map ucamel ns = ids.
Proof. induction 1 as [|n i ns ids H _ IH]; [reflexivity|]. cbn [map]. now rewrite (ucamel_right _ _ H), IH. Qed.

(** The names of the classes have no percent signs. *)
Lemma class_plain v s c : document_of s v -> In c (g_classes (sc_graph s)) -> plain (c_name c).
Proof.
  intros (Hw & re_ok & ordered & ref & H) Hc. assert (Hd := accepted_describes _ _ _ _ _ Hw H). destruct (accepted_document _ _ _ _ _ Hw H) as [Hdoc _].
  destruct Hd as [Hd _]. set (g := sc_graph s) in *.
  destruct Hdoc as [l nm classes embeds cns ens Hkeys Horder Hname Hcap Hdesc Hcpp Hgo Hpy Hcl Hem Hcns Hens Hnd Hcok Heok Hprops Hpl].
  destruct Hd as (l' & cs & es & [= <-] & A1 & A2 & A3 & A4 & A5 & A6 & A7 & A8 & A9 & A10). fold g in A1, A6, A7, A8, A9.
  assert (Hw' := Hw). apply wf_obj in Hw'. destruct Hw' as [Hnk Hwl].
  assert (E2 := list_under_unique l _ _ _ Hnk A4 Hcl). subst cs. assert (W1 := elements_wf l _ _ Hw Hcl).
  destruct (all_nth _ _ _ A6 A8 c Hc) as (i & d & Hdi & _ & fs & -> & Hm & _). apply nth_error_In in Hdi.
  destruct (Hcok _ Hdi) as (l' & E & _ & (a & Ha & t & Et & Hid) & _). injection E as <-. subst a.
  assert (Wfs := W1 _ Hdi). apply wf_obj in Wfs as [Nfs _]. assert (E := unique fs Nfs _ _ _ Hm Ha). injection E as E. rewrite E.
  assert (HI : forall q, identifier capital q -> plain q).
  { intros q (x & r & -> & Hx & Hr & _) [->|Hin]; [unfold capital in Hx; lia|]. apply Hr in Hin. unfold word, letter, capital, small, digit in Hin. lia. }
  destruct Hid as [Hid|(q & -> & Hid)]; [now apply HI|]. apply plain_app; [now apply HI|]. intros [Hx|[]]. discriminate.
Qed.
Lemma upper_camel_plain n i : upper_camel n i -> plain n -> plain i.
Proof.
  intros (parts & -> & _ & _ & ->) Hn Hin. apply in_concat in Hin as (q & Hq & Hin). apply in_map_iff in Hq as (r & <- & Hr).
  assert (HJ : forall ps, In r ps -> incl r (join (s_ "_") ps)).
  { clear. induction ps as [|x ps IH]; intros Hr; [destruct Hr|]. destruct ps as [|y ps]; cbn [join].
    - destruct Hr as [<-|[]]. apply incl_refl.
    - destruct Hr as [<-|Hr]; [now apply incl_appl, incl_refl|]. apply incl_appr, incl_appr. now apply IH. }
  apply Hn. apply (HJ parts Hr). destruct r as [|c r]; [destruct Hin|]. cbn [with_capital] in Hin. destruct Hin as [Hc|Hin]; [|now right].
  left. unfold upper_c in Hc. destruct (is_lower c) eqn:E; [|exact Hc]. unfold is_lower in E. apply andb_true_iff in E as [E1 E2]. apply N.leb_le in E1, E2. lia.
Qed.

(** The functions of the package have distinct names. *)
Lemma functions_distinct vet v s :
  document_of s v -> capital_plurals v -> go_validate (sc_graph s) = Ok [] -> go_names_apart (sc_graph s) ->
  NoDup (keys (pk_functions (go_package (sc_graph s) vet))).
Proof.
  intros Hd Hcap Hv Hap. destruct (C58_go_partial v s Hd Hcap Hv Hap) as [(Hnd & _) _]. set (g := sc_graph s) in *.
  unfold go_declared, go_from_declared, go_to_declared in Hnd.
  apply NoDup_app_parts in Hnd as (D1 & Hnd & _). apply NoDup_app_parts in Hnd as (_ & Hnd & _). apply NoDup_app_parts in Hnd as (D2 & D3 & D4).
  rewrite function_names. set (names := map c_name (g_classes g) ++ _) in *.
  apply NoDup_app_parts in D2 as (P1 & P2 & P3). apply NoDup_app_parts in P2 as (_ & P4 & _). apply NoDup_app_parts in D3 as (P5 & P6 & P7).
  apply NoDup_app_intro; [|apply NoDup_app_intro; [exact P4|exact P6|]|].
  + destruct (graph_needs g (KPrim PDuration)); repeat constructor; cbn; intuition discriminate.
  + intros x H1 H2. apply (D4 x); rewrite !in_app_iff; [right; now right|now right].
  + intros x H1 H2. apply in_app_or in H2. destruct (graph_needs g (KPrim PDuration)); [|destruct H1]. cbn in H1, P1. destruct H1 as [<-|[<-|[]]].
    * destruct H2 as [H2|H2]; [apply (P3 (s_ "durationFromString")); [now left|apply in_or_app; now right]|].
      apply (D4 (s_ "durationFromString")); [left; reflexivity|apply in_or_app; now right].
    * destruct H2 as [H2|H2]; [|apply (P7 (s_ "durationToString")); [now left|exact H2]].
      apply (D4 (s_ "durationToString")); [rewrite !in_app_iff; right; now right|now left].
Qed.

Lemma accepted_well_typed vet v s :
  document_of s v -> capital_plurals v -> go_validate (sc_graph s) = Ok [] -> go_names_apart (sc_graph s) ->
  (forall t ref, value_type (sc_graph s) t ref -> constants_fit t) ->
  (vet = true -> forall t ref, value_type (sc_graph s) t ref -> texts_plain t) ->
  (vet = true -> forall c p, In c (g_classes (sc_graph s)) -> c_id_pattern c = Some p -> plain p) ->
  forall f, In f (go_functions (sc_graph s)) -> well_typed (go_package (sc_graph s) vet) f.
Proof.
  intros Hd Hcap Hv Hap Hfit Hplain Hids. assert (Hfd := functions_distinct vet v s Hd Hcap Hv Hap). assert (Hcp := fun c => class_plain v s c Hd). destruct (C58_go_partial v s Hd Hcap Hv Hap) as [(Hnd & _) _].
  assert (HR := document_resolved _ _ Hd).
  assert (Hname : forall n, In n (structure_names (sc_graph s)) -> capital_name n).
  { intros n Hn. destruct (graph_names _ _ n Hd Hn) as (a & r & E & Ha). exists a, r. split; [exact E|now apply upper_capital]. }
  destruct Hap as (Hapart & _). set (g := sc_graph s) in *.
  assert (HN : NoDup (map c_name (g_classes g)) /\ NoDup (map e_name (g_embeds g))).
  { destruct Hd as (Hw & re_ok & ordered & ref & H). destruct (C33_accepted_schemas _ _ _ _ _ Hw H) as (Hn & _ & _).
    inversion Hn as [|? ? _ Hn']; subst. apply NoDup_app_parts in Hn'. split; apply Hn'. }
  destruct (C37_no_clash_partial g Hapart Hv) as [(ns & F1 & N1 & K1) (Hcf & Hef & (fs & F2 & N2 & K2))].
  assert (Hcname : forall n, In n (structure_names g) -> exists i, upper_camel n i).
  { intros n Hn. destruct (Forall2_In_l _ _ _ F1 _ Hn) as (i & _ & Hi). now exists i. }
  unfold go_declared, go_from_declared, go_to_declared in Hnd. fold (structure_names g) in F1.
  apply NoDup_app_parts in Hnd as (D1 & Hnd & _). apply NoDup_app_parts in Hnd as (_ & Hnd & _). apply NoDup_app_parts in Hnd as (D2 & D3 & D4).
  assert (Hfn := function_names g vet).
  apply package_well_typed; try assumption.
  - apply HN.
  - apply HN.
  - now rewrite struct_names.
  - intros x Hx Hl. rewrite Hfn in Hx.
    assert (K : forallb (fun y => match y with c :: _ => negb (is_upper c) | [] => false end) (keys library_functions) = true) by (vm_compute; reflexivity).
    assert (Hc : forall n, In n (structure_names g) -> capital_name (ucamel n)) by (intros n Hn; apply (ucamel_name g); assumption).
    assert (HH : capital_name x \/ x = s_ "durationFromString" \/ x = s_ "durationToString").
    { rewrite !in_app_iff in Hx. destruct Hx as [Hx|[Hx|Hx]].
      - destruct (graph_needs g (KPrim PDuration)); [|destruct Hx]. cbn in Hx. destruct Hx as [<-|[<-|[]]]; auto.
      - left. apply in_map_iff in Hx as (n & <- & Hn). apply capital_app, Hc. now apply composite_structure.
      - left. apply in_map_iff in Hx as (n & <- & Hn). apply capital_app, Hc. now apply composite_structure. }
    destruct HH as [(a & r & -> & Ha)|[->| ->]]; [|apply mem_In in Hl; vm_compute in Hl; discriminate..].
    rewrite forallb_forall in K. apply K in Hl. now rewrite Ha in Hl.
  - intros c Hc. destruct (Hcf c Hc) as [(ids & F & N & _) Hown]. rewrite (ucamel_all _ _ F). constructor; [|exact N].
    intros Hin. destruct (Forall2_In_r _ _ _ F _ Hin) as (n & Hn & Hu). apply in_map_iff in Hn as (p & <- & Hp). now apply (Hown p Hp).
  - intros e He. destruct (Hef e He) as (ids & F & N & _). now rewrite (ucamel_all _ _ F).
  - rewrite <- map_app. apply (Permutation.Permutation_NoDup (l := map ucamel (map p_name (g_props g) ++ map c_plural (g_classes g)))).
    + apply Permutation.Permutation_map, Permutation.Permutation_app_comm.
    + now rewrite (ucamel_all _ _ F2).
  - intros _ c Hc. destruct (Hcname (c_name c) ltac:(now apply class_structure)) as (i & Hi). rewrite (ucamel_right _ _ Hi).
    apply (upper_camel_plain _ _ Hi). now apply Hcp.
Qed.

(** C60: in all documents which pass the validations, whose names are apart (C58) and whose
    bounds fit the types of Go, all the functions which parse and serialize are well typed in
    the package. *)
Theorem C60_go_partial v s :
  document_of s v -> capital_plurals v -> go_validate (sc_graph s) = Ok [] -> go_names_apart (sc_graph s) ->
  (forall t ref, value_type (sc_graph s) t ref -> constants_fit t) ->
  forall f, In f (go_functions (sc_graph s)) -> well_typed (go_package (sc_graph s) false) f.
Proof. intros. apply (accepted_well_typed false v); auto; discriminate. Qed.
Print Assumptions C60_go_partial.

(** C61: if moreover neither the patterns nor the layouts of dates and times contain a percent
    sign, all the formats have exactly one verb for each argument, which fits its type. *)
Theorem C61_go_partial v s :
  document_of s v -> capital_plurals v -> go_validate (sc_graph s) = Ok [] -> go_names_apart (sc_graph s) ->
  (forall t ref, value_type (sc_graph s) t ref -> constants_fit t /\ texts_plain t) ->
  (forall c p, In c (g_classes (sc_graph s)) -> c_id_pattern c = Some p -> plain p) ->
  forall f, In f (go_functions (sc_graph s)) -> well_typed (go_package (sc_graph s) true) f.
Proof. intros Hd Hc Hv Ha Ht Hi. apply (accepted_well_typed true v); auto; intros; now apply (Ht t ref). Qed.
Print Assumptions C61_go_partial.

(** ** Examples *)

(** A shop like that of C58, with bounds *)
Definition go_shelf : jval := shop_with
  [("classes", JArr [plain_class "Article" [("id_pattern", txt "^[a-z]+$"); ("properties", obj [("size", property [("type", txt "Size")]); ("made", property [("type", txt "date")]); ("code", property [("type", txt "string"); ("pattern", txt "^[0-9]{3}$")]);
                                            ("stars", property [("type", txt "integer"); ("minimum", JInt 1); ("maximum", JInt 5); ("optional", JBool true)])])];
                     plain_class "Big_box" [("plural", txt "Big_boxes"); ("properties", obj [("content", property [("type", txt "map"); ("values", obj [("type", txt "Article")])])])]]);
   ("embeds", JArr [plain_class "Size" [("properties", obj [("like", property [("type", txt "Article"); ("optional", JBool true)])])]]);
   ("properties", obj [("rented", property [("type", txt "array"); ("minimum_size", JInt 1); ("values", obj [("type", txt "duration")])])])]%string.
Lemma inside_types (ps : list prop) (P : ty -> Prop) :
  Forall (fun p => (fix all t := P t /\ match t with TArray u _ _ | TMap u => all u | _ => True end) (p_type p)) ps ->
  forall p n t, In p ps -> inside (p_type p) n t -> P t.
Proof.
  intros H p n t Hp Hin. rewrite Forall_forall in H. apply H in Hp. clear H. revert Hp. induction Hin; intros Hp.
  - destruct t; apply Hp.
  - apply IHHin. apply Hp.
  - apply IHHin. apply Hp.
Qed.
Example C60_C61_go_nontrivial : exists s,
  document_of s go_shelf /\ capital_plurals go_shelf /\ go_validate (sc_graph s) = Ok [] /\ go_names_apart (sc_graph s) /\
  (forall t ref, value_type (sc_graph s) t ref -> constants_fit t /\ texts_plain t) /\
  (forall c p, In c (g_classes (sc_graph s)) -> c_id_pattern c = Some p -> plain p) /\
  map gf_name (go_functions (sc_graph s)) = map s_ ["ArticleFromJSONable"; "BigBoxFromJSONable"; "SizeFromJSONable"; "ShopFromJSONable";
    "ArticleToJSONable"; "BigBoxToJSONable"; "SizeToJSONable"; "ShopToJSONable"]%string.
Proof.
  by_document go_shelf s D. eexists. split; [exact D|]. split; [plurals_capital|]. split; [vm_compute; reflexivity|].
  split; [split; [|split; [|split]]|split; [|split; [|vm_compute; reflexivity]]].
  - intros n i Hn Hi Hj. apply ucamel_upper in Hi, Hj. vm_compute in Hn. rewrite <- Hi in Hj. repeat (destruct Hn as [<-|Hn]; [vm_compute in Hj; discriminate Hj|]). destruct Hn.
  - intros n i Hn Hi [H|(m & j & Hm & Hj & H)]; apply ucamel_upper in Hi; [|apply ucamel_upper in Hj];
      vm_compute in Hn; repeat (destruct Hn as [<-|Hn]; [vm_compute in Hi; injection Hi as <-|]); try (destruct Hn);
      try (apply mem_In in H; vm_compute in H; discriminate);
      vm_compute in Hm; repeat (destruct Hm as [<-|Hm]; [vm_compute in Hj; injection Hj as <-; destruct H as [H|H]; vm_compute in H; discriminate|]); destruct Hm.
  - exists [s_ "articles"; s_ "bigBoxes"]. split; [|repeat constructor; vm_compute; intuition discriminate].
    constructor; [|constructor; [|constructor]].
    + exists (s_ "Articles"), []. split; [reflexivity|]. split; [|reflexivity]. intros q [<-|[]]. split; [discriminate|vm_compute; intuition discriminate].
    + exists (s_ "Big"), [s_ "boxes"]. split; [reflexivity|]. split; [|reflexivity]. intros q [<-|[<-|[]]]; (split; [discriminate|vm_compute; intuition discriminate]).
  - intros c i j Hc Hi Hj. apply ucamel_upper in Hi. apply camel_lower in Hj. vm_compute in Hc. destruct Hc as [<-|[<-|[]]]; vm_compute in Hi, Hj; injection Hi as <-; injection Hj as <-; discriminate.
  - intros t ref [r ps p n Hc Hp Hin _]. revert p n t Hp Hin. apply (inside_types ps (fun t => constants_fit t /\ texts_plain t)).
    destruct Hc as [c Hc|e He|]; cbn in Hc || cbn in He || cbn; try (destruct Hc as [<-|[<-|[]]]); try (destruct He as [<-|[]]);
      repeat first [apply Forall_nil | apply Forall_cons]; cbn; unfold bound_fits, plain; cbn; intuition (try lia; try discriminate).
    match goal with H : Ok _ = Ok ?l, H' : In _ ?l |- _ => injection H as <-; cbn in H'; intuition discriminate end.
  - intros c p Hc Hp. cbn in Hc. destruct Hc as [<-|[<-|[]]]; [|discriminate]. injection Hp as <-. unfold plain. cbn. intuition discriminate.
Qed.

(** ** What the validations do not notice *)

Lemma checks_if_parts pk loop G e b c l : checks pk loop G (SIf e b c :: l) -> typed pk G e GBool /\ checks pk loop G b /\ checks pk loop G c /\ checks pk loop G l.
Proof. intros H. inversion H; subst. auto. Qed.
Lemma checks_define_parts pk loop G xs e l : checks pk loop G (SDefine xs e :: l) -> exists ts, yields pk G e ts /\ length xs = length ts /\ checks pk loop (bind_all xs ts G) l.
Proof. intros H. inversion H; subst. eauto. Qed.
Lemma order_fits pk G o x z t : typed pk ((x, t) :: G) (XNot (XOrder o (XVar x) (XNumber z))) GBool -> representable z t.
Proof.
  intros H. inversion H; subst. match goal with H : typed _ _ (XOrder _ _ _) _ |- _ => inversion H; subst end.
  match goal with H : typed _ _ (XVar _) ?u |- _ => assert (E : u = t) by (inversion H; subst; match goal with H : declared _ _ _ |- _ => inversion H; subst; congruence end); subst u end.
  match goal with H : assignable _ _ (XNumber _) _ |- _ => inversion H; subst end; try assumption;
    match goal with H : typed _ _ (XNumber _) _ |- _ => inversion H end.
Qed.

(** The minimum of an integer may lie beyond those of Go: the constant overflows. *)
Definition many_stars : jval := shop_with
  [("properties", obj [("stars", property [("type", txt "integer"); ("minimum", JInt 100000000000000000000)])])]%string.
Theorem C60_go_overflow_refuted : exists v s,
  document_of s v /\ capital_plurals v /\ go_validate (sc_graph s) = Ok [] /\ go_names_apart (sc_graph s) /\
  exists f, In f (go_functions (sc_graph s)) /\ ~ well_typed (go_package (sc_graph s) false) f.
Proof.
  exists many_stars. by_document many_stars s D. eexists. split; [exact D|]. split; [plurals_capital|]. split; [vm_compute; reflexivity|].
  split; [split; [|split; [|split]]|].
  - intros n i [].
  - intros n i Hn Hi [H|(m & j & Hm & Hj & H)]; apply ucamel_upper in Hi; [|apply ucamel_upper in Hj];
      vm_compute in Hn; repeat (destruct Hn as [<-|Hn]; [vm_compute in Hi; injection Hi as <-|]); try (destruct Hn);
      try (apply mem_In in H; vm_compute in H; discriminate);
      vm_compute in Hm; repeat (destruct Hm as [<-|Hm]; [vm_compute in Hj; injection Hj as <-; destruct H as [H|H]; vm_compute in H; discriminate|]); destruct Hm.
  - exists []. split; constructor.
  - intros c i j [].
  - set (g := sc_graph _). exists (parse_graph_code g). split; [left; reflexivity|]. intros H. unfold well_typed in H.
    cbn [g parse_graph_code gf_body gf_params gf_results sc_graph g_props g_classes flat_map app preconditions parse_properties_code parse_property_code parse_code p_type p_optional
      check_bounds check_bound b_min b_max numbered_classes length combine List.seq parse_as andb] in H.
    apply checks_if_parts in H as (_ & _ & _ & H). apply checks_if_parts in H as (_ & _ & _ & H). apply checks_if_parts in H as (_ & _ & _ & H).
    apply checks_define_parts in H as (ts & _ & _ & H). apply checks_if_parts in H as (_ & _ & _ & H).
    apply checks_define_parts in H as (ts' & _ & _ & H). apply checks_if_parts in H as (_ & _ & H & _).
    apply checks_define_parts in H as (ts2 & _ & _ & H).
    apply checks_if_parts in H as (_ & _ & H & _). apply checks_if_parts in H as (_ & _ & H & _). apply checks_if_parts in H as (_ & _ & H & _).
    apply checks_define_parts in H as (ts3 & Hy & _ & H). apply checks_if_parts in H as (H & _).
    assert (E : ts3 = [GInt64]).
    { inversion Hy; subst; try discriminate. match goal with H : typed _ _ _ _ |- _ => inversion H; subst; reflexivity end. }
    subst ts3. apply order_fits in H. cbn in H. lia.
Qed.
Print Assumptions C60_go_overflow_refuted.

(** A pattern with a percent sign adds verbs to the format of the message: here the message
    has two verbs, but a single argument. *)
Lemma applied_parts pk G e args params rest : applied pk G args params rest -> In e args -> exists t, assignable pk G e t.
Proof. induction 1; intros Hin; [destruct Hin|..]; (destruct Hin as [<-|Hin]; [eauto|auto]). Qed.
Lemma complain_printed pk loop G ref text about l : checks pk loop G (complain ref text about :: l) -> printed pk G (s_ "fmt.Sprintf") (XText text :: about).
Proof.
  intros H. inversion H; subst. match goal with H : yields _ _ _ _ |- _ => rename H into Hy end.
  assert (HA : exists params rest, applied pk G [ref; call "fmt.Sprintf" (XText text :: about)] params rest).
  { inversion Hy; subst; [|eauto]. match goal with H : typed _ _ _ _ |- _ => inversion H; subst; eauto end. }
  destruct HA as (params & rest & HA). apply (applied_parts _ _ (call "fmt.Sprintf" (XText text :: about))) in HA as (t & HA); [|right; now left].
  inversion HA; subst; match goal with H : typed _ _ _ _ |- _ => inversion H; subst; assumption end.
Qed.
Lemma formats_char_inv c x vs : formats (c :: x) vs -> c <> 37%N -> formats x vs.
Proof.
  intros H Hc. remember (c :: x) as y eqn:Ey. destruct H as [|d y' vs Hd H|y' vs H|fl d y' vs Hf Hl H]; try discriminate.
  - injection Ey as -> ->. exact H.
  - injection Ey as <- _. now elim Hc.
  - injection Ey as <- _. now elim Hc.
Qed.
Lemma formats_verb_inv d x vs : formats (37%N :: d :: x) vs -> ~ flag d -> d <> 37%N -> exists vs', vs = d :: vs' /\ formats x vs'.
Proof.
  intros H Hd Hp. remember (37%N :: d :: x) as y eqn:Ey. destruct H as [|c y' vs Hc H|y' vs H|fl c y' vs Hf Hl H]; try discriminate.
  - injection Ey as -> ->. now elim Hc.
  - injection Ey as <- _. now elim Hp.
  - destruct fl as [|f fl]; cbn in Ey; injection Ey as E1 E2; [subst; eauto|]. inversion Hf; subst. contradiction.
Qed.
Definition percents : jval := shop_with
  [("properties", obj [("off", property [("type", txt "string"); ("pattern", txt "^%d$")])])]%string.
Theorem C61_go_percent_refuted : exists v s,
  document_of s v /\ capital_plurals v /\ go_validate (sc_graph s) = Ok [] /\ go_names_apart (sc_graph s) /\
  (forall t ref, value_type (sc_graph s) t ref -> constants_fit t) /\
  exists f, In f (go_functions (sc_graph s)) /\ ~ well_typed (go_package (sc_graph s) true) f.
Proof.
  exists percents. by_document percents s D. eexists. split; [exact D|]. split; [plurals_capital|]. split; [vm_compute; reflexivity|].
  split; [split; [|split; [|split]]|split].
  - intros n i [].
  - intros n i Hn Hi [H|(m & j & Hm & Hj & H)]; apply ucamel_upper in Hi; [|apply ucamel_upper in Hj];
      vm_compute in Hn; repeat (destruct Hn as [<-|Hn]; [vm_compute in Hi; injection Hi as <-|]); try (destruct Hn);
      try (apply mem_In in H; vm_compute in H; discriminate);
      vm_compute in Hm; repeat (destruct Hm as [<-|Hm]; [vm_compute in Hj; injection Hj as <-; destruct H as [H|H]; vm_compute in H; discriminate|]); destruct Hm.
  - exists []. split; constructor.
  - intros c i j [].
  - intros t ref [r ps p n Hc Hp Hin _]. revert p n t Hp Hin. apply (inside_types ps constants_fit).
    destruct Hc as [c Hc|e He|]; [destruct Hc|destruct He|]. cbn. repeat constructor.
  - set (g := sc_graph _). exists (parse_graph_code g). split; [left; reflexivity|]. intros H. unfold well_typed in H.
    cbn [g parse_graph_code gf_body gf_params gf_results sc_graph g_props g_classes flat_map app preconditions parse_properties_code parse_property_code parse_code p_type p_optional
      numbered_classes length combine List.seq parse_as andb] in H.
    apply checks_if_parts in H as (_ & _ & _ & H). apply checks_if_parts in H as (_ & _ & _ & H). apply checks_if_parts in H as (_ & _ & _ & H).
    apply checks_define_parts in H as (ts & _ & _ & H). apply checks_if_parts in H as (_ & _ & _ & H).
    apply checks_define_parts in H as (ts' & _ & _ & H). apply checks_if_parts in H as (_ & _ & H & _).
    apply checks_define_parts in H as (ts2 & _ & _ & H).
    apply checks_if_parts in H as (_ & _ & H & _). apply checks_if_parts in H as (_ & H & _ & _).
    apply complain_printed in H. cbn [In] in H. inversion H as [? ? Hf|? ? Hf|? ? verbs ? Hf Hs]; subst; [apply Hf; now left|discriminate Hf|].
    inversion Hs as [|v e t verbs' args _ _ Hs']; subst. inversion Hs'; subst.
    remember (s_ "expected to match " ++ s_ "^%d$" ++ s_ ", but got: %s") as x eqn:Ex. vm_compute in Hf. vm_compute in Ex. subst x.
    repeat (apply formats_char_inv in Hf; [|discriminate]).
    apply formats_verb_inv in Hf as (vs' & E & Hf); [|vm_compute; intuition discriminate|discriminate]. injection E as _ <-.
    repeat (apply formats_char_inv in Hf; [|discriminate]).
    apply formats_verb_inv in Hf as (vs' & E & _); [discriminate E|vm_compute; intuition discriminate|discriminate].
Qed.
Print Assumptions C61_go_percent_refuted.
