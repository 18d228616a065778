(** Theorems: the types in the generated C++ functions fit (C62). *)
From Coq Require Import String List Arith NArith ZArith Bool Lia.
From Verif Require Import Base M_Naming M_Schema M_Dec M_TypeGraph M_Walk M_Text M_Validate M_LangValid M_AutoID M_GoImports S_Scope M_Scope M_GoScope M_CppScope
  S_TypeGraph S_Conform S_Walk S_Validate S_GoImports S_Imports S_LangValid
  P_Common P_TypeGraph P_Naming P_Walk P_Validate P_ValidateType P_ValidateDoc P_NoRaise P_ParseInv P_Parsed P_LangValid P_GoImports P_Scope P_PyScope P_BlockScope P_GoFunctions
  P_CppScope P_CppSource T_Validate T_LangValid T_EndToEnd T_GoImports T_Imports T_GoScope T_CppScope
  S_CppTyping M_CppTyping P_CppTyping P_CppPackage.
Import ListNotations.
Open Scope list_scope.
Local Open Scope nat_scope.

(** The functions are those whose names C58 is about. *)
Theorem C62_cpp_names cpp g :
  map cf_name (cpp_functions cpp g) =
    [cpp_from (g_name g)] ++ map cpp_from (map c_name (g_classes g) ++ map e_name (g_embeds g)) ++
    map cpp_serializer_name (map c_name (g_classes g) ++ map e_name (g_embeds g)) ++ [cpp_serializer_name (g_name g)].
Proof.
  rewrite <- !composite_names. unfold cpp_functions. rewrite !map_app, !map_map. reflexivity.
Qed.
Print Assumptions C62_cpp_names.

(** C62: in all documents which pass the validations and whose structures and properties have
    the names of [graph_apart] and [lower_properties], all the functions which parse and
    serialize are well typed in the source, if the numbers of the schema fit literals and, with
    the library date.h, no date is optional. *)
Theorem C62_cpp_partial v s cpp :
  document_of s v -> sc_cpp s = Some cpp -> cpp_validate (sc_graph s) = Ok [] -> graph_apart upper_camel (sc_graph s) ->
  (forall n, In n (structure_names (sc_graph s)) -> ~ upper_camel n (s_ "Json::Value")) ->
  lower_properties (sc_graph s) ->
  (forall ps p f, In ps (composites (sc_graph s)) -> In p ps -> p_optional p = true ->
     p_type p = TDate f \/ p_type p = TDatetime f -> cc_datetime_library cpp = s_ "ctime") ->
  (forall t ref, value_type (sc_graph s) t ref -> literals_fit t) ->
  (forall c k, In c (g_classes (sc_graph s)) -> json_plural (c_plural c) = Ok k -> (Z.of_nat (length k) < 2 ^ 63 - 1)%Z) ->
  forall f, In f (cpp_functions cpp (sc_graph s)) -> soundly_typed (cpp_source cpp (sc_graph s)) f.
Proof.
  intros Hd Hcpp Hv Hapart Hjson Hlow Hopt Hfit Hkey. set (g := sc_graph s) in *.
  assert (HR := document_resolved _ _ Hd). fold g in HR.
  assert (HN : NoDup (map c_name (g_classes g)) /\ NoDup (map e_name (g_embeds g))).
  { destruct Hd as (Hw & re_ok & ordered & ref & H). destruct (C33_accepted_schemas _ _ _ _ _ Hw H) as (Hn & _ & _).
    inversion Hn as [|? ? _ Hn']; subst. apply NoDup_app_parts in Hn'. split; apply Hn'. }
  assert (HA : graph_apart camel_composite g).
  { intros n i Hn [_ Hi] [_ Hj]. exact (Hapart n i Hn Hi Hj). }
  destruct (C38_no_clash_partial g HA Hv) as [(ns & F1 & N1 & K1) _].
  destruct (C38_declared g Hv) as (D1 & D2 & D3).
  assert (Hcname : forall n, In n (structure_names g) -> exists i, upper_camel n i).
  { intros n Hn. destruct (Forall2_In_l _ _ _ F1 _ Hn) as (i & _ & [_ Hi]). now exists i. }
  assert (Htypes : NoDup (map ucamel (structure_names g))).
  { replace (map ucamel (structure_names g)) with ns; [exact N1|]. clear -F1. unfold structure_names.
    induction F1 as [|n i l ns [_ H] _ IH]; [reflexivity|]. cbn [map]. now rewrite (ucamel_right _ _ H), IH. }
  assert (Hin : forall c, In c (g_classes g) -> In (c_props c) (composites g)).
  { intros c Hc. unfold composites. rewrite !in_app_iff. left. now apply in_map. }
  apply source_soundly_typed; try assumption; try apply HN.
  - intros n Hn E. destruct (Hcname n Hn) as (i & Hi). apply (Hjson n Hn). unfold t_value in E. rewrite (ucamel_right _ _ Hi) in E. injection E as E. now rewrite E in Hi.
  - intros c Hc. constructor; [|now apply D1, Hin]. intros H. apply in_map_iff in H as (p & E & Hp). now apply (D2 c p Hc Hp).
  - intros e He. apply D1. unfold composites. rewrite !in_app_iff. right. left. now apply in_map.
  - assert (Hg : In (g_props g) (composites g)) by (unfold composites; rewrite !in_app_iff; right; right; now left).
    apply NoDup_app_intro; [now apply D1| |].
    + apply C38_no_errors_partial in Hv. destruct Hv as (_ & _ & _ & _ & (ids & A & B & _)). apply Forall2_app_inv_l in A as (i1 & i2 & _ & A2 & ->).
      apply NoDup_app_parts in B as (_ & B & _). rewrite <- (map_map c_plural lower). replace (map lower (map c_plural (g_classes g))) with i2; [exact B|].
      clear -A2. induction A2 as [|n i l ids [_ H] _ IH]; [reflexivity|]. cbn [map]. now rewrite H, IH.
    + intros x H1 H2. apply in_map_iff in H1 as (p & <- & Hp). apply in_map_iff in H2 as (c & E & Hc). now apply (D3 c p Hc Hp).
  - intros ps p H1 H2 H3. unfold undated. assert (HO := fun f => Hopt ps p f H1 H2 H3). unfold cpp_ctime.
    destruct (p_type p) as [| | | | |f| |f| | | | | |]; try exact I; rewrite (HO f ltac:(auto)); reflexivity.
  - apply (document_cpp_settings _ _ _ Hd Hcpp).
  - intros c Hc. unfold instances_key, literal_fits. destruct (json_plural (c_plural c)) as [k|] eqn:E; [|cbn; lia].
    apply Hkey in E; [|exact Hc]. rewrite app_length. change (length (s_ "/")) with 1. lia.
Qed.
Print Assumptions C62_cpp_partial.

(** ** An example *)

Definition typed_shop : jval := with_cpp
  [("classes", JArr [plain_class "Article" [("id_pattern", txt "^[a-z]+$");
                       ("properties", obj [("size", property [("type", txt "Size")]); ("made", property [("type", txt "date")]); ("code", property [("type", txt "string"); ("pattern", txt "^[0-9]{3}$")]);
                                           ("stars", property [("type", txt "integer"); ("minimum", JInt 1); ("maximum", JInt 5); ("optional", JBool true)])])];
                     plain_class "Big_box" [("plural", txt "Big_boxes"); ("properties", obj [("content", property [("type", txt "map"); ("values", obj [("type", txt "Article")])])])]]);
   ("embeds", JArr [plain_class "Size" [("properties", obj [("like", property [("type", txt "Article"); ("optional", JBool true)])])]]);
   ("properties", obj [("rented", property [("type", txt "array"); ("minimum_size", JInt 1); ("values", obj [("type", txt "duration")]); ("optional", JBool true)]);
                       ("flags", property [("type", txt "array"); ("values", obj [("type", txt "boolean")])]); ("closes", property [("type", txt "time"); ("optional", JBool true)])])]%string.
Lemma all_inside (ps : list prop) (P : ty -> Prop) :
  Forall (fun p => (fix all t := P t /\ match t with TArray u _ _ | TMap u => all u | _ => True end) (p_type p)) ps ->
  forall p n t, In p ps -> inside (p_type p) n t -> P t.
Proof.
  intros H p n t Hp Hin. rewrite Forall_forall in H. apply H in Hp. clear H. revert Hp. induction Hin; intros Hp.
  - destruct t; apply Hp.
  - apply IHHin. apply Hp.
  - apply IHHin. apply Hp.
Qed.
Example C62_cpp_nontrivial : exists s cpp,
  document_of s typed_shop /\ sc_cpp s = Some cpp /\ cpp_validate (sc_graph s) = Ok [] /\ graph_apart upper_camel (sc_graph s) /\
  (forall n, In n (structure_names (sc_graph s)) -> ~ upper_camel n (s_ "Json::Value")) /\
  lower_properties (sc_graph s) /\
  (forall ps p f, In ps (composites (sc_graph s)) -> In p ps -> p_optional p = true ->
     p_type p = TDate f \/ p_type p = TDatetime f -> cc_datetime_library cpp = s_ "ctime") /\
  (forall t ref, value_type (sc_graph s) t ref -> literals_fit t) /\
  (forall c k, In c (g_classes (sc_graph s)) -> json_plural (c_plural c) = Ok k -> (Z.of_nat (length k) < 2 ^ 63 - 1)%Z) /\
  cpp_ctime cpp = false /\
  map cf_name (cpp_functions cpp (sc_graph s)) = map s_ ["shop_from"; "article_from"; "big_box_from"; "size_from";
    "serialize_article"; "serialize_big_box"; "serialize_size"; "serialize_shop"]%string.
Proof.
  by_document typed_shop s D. eexists _, _. split; [exact D|]. split; [reflexivity|]. split; [vm_compute; reflexivity|].
  split; [|split; [|split; [|split; [|split; [|split; [|split; vm_compute; reflexivity]]]]]].
  - intros n i Hn Hi Hj. apply ucamel_upper in Hi, Hj. vm_compute in Hn. rewrite <- Hi in Hj. repeat (destruct Hn as [<-|Hn]; [vm_compute in Hj; discriminate Hj|]). destruct Hn.
  - intros n Hn Hj. apply ucamel_upper in Hj. vm_compute in Hn. repeat (destruct Hn as [<-|Hn]; [vm_compute in Hj; discriminate Hj|]). destruct Hn.
  - intros ps p Hps Hp. vm_compute in Hps. repeat (destruct Hps as [<-|Hps]; [cbn in Hp; repeat (destruct Hp as [<-|Hp]; [reflexivity|]); destruct Hp|]). destruct Hps.
  - intros ps p f Hps Hp Ho Ht. exfalso. vm_compute in Hps.
    repeat (destruct Hps as [<-|Hps]; [cbn in Hp; repeat (destruct Hp as [<-|Hp]; [destruct Ht; discriminate|]); destruct Hp|]). destruct Hps.
  - intros t ref [r ps p n Hc Hp Hin _]. revert p n t Hp Hin. apply (all_inside ps literals_fit).
    destruct Hc as [c Hc|e He|]; cbn in Hc || cbn in He || cbn; try (destruct Hc as [<-|[<-|[]]]); try (destruct He as [<-|[]]);
      repeat first [apply Forall_nil | apply Forall_cons]; cbn; unfold literal_fits; cbn; intuition lia.
  - intros c k Hc E. vm_compute in Hc. destruct Hc as [<-|[<-|[]]]; vm_compute in E; injection E as <-; cbn; lia.
Qed.

(** ** What the validations do not notice *)

Lemma known_same G x t c t' c' : known G x t c -> known G x t' c' -> t = t' /\ c = c'.
Proof. induction 1; intros H'; inversion H'; subst; try congruence; auto. Qed.
Lemma if_parts so r loop G e b c l : sound so r loop G (KIf e b c :: l) ->
  (exists t k, has so G e t k) /\ sound so r loop G b /\ sound so r loop G c /\ sound so r loop G l.
Proof. intros H. inversion H; subst. eauto 6. Qed.
Lemma constant_parts so r loop G t x e l : sound so r loop G (KReference true t x e :: l) -> sound so r loop ((x, (t, true)) :: G) l.
Proof. intros H. now inversion H; subst. Qed.
Lemma let_parts so r loop G c t x e l : sound so r loop G (KLet c t x e :: l) -> sound so r loop ((x, (t, c)) :: G) l.
Proof. intros H. now inversion H; subst. Qed.
Lemma auto_parts so r loop G c x e l : sound so r loop G (KAuto c x e :: l) -> exists t, sound so r loop ((x, (t, c)) :: G) l.
Proof. intros H. inversion H; subst. eauto. Qed.
Lemma do_parts so r loop G e l : sound so r loop G (KDo e :: l) -> exists t k, has so G e t k.
Proof. intros H. inversion H; subst. eauto. Qed.
Lemma assign_parts so r loop G a e l : sound so r loop G (KAssign a e :: l) -> exists t k, has so G a t k.
Proof. intros H. inversion H; subst; eauto. Qed.
Lemma target_parts so G S f t k : known G (Own "target") (CPointer false (CNamed S)) false -> mem f [s_ "first"; s_ "second"] = false ->
  has so G (EMember (EDeref (cown "target")) f) t k -> member_type so S f = Some t.
Proof.
  intros HT Hf H. assert (HV : forall u j, has so G (cown "target") u j -> u = CPointer false (CNamed S)).
  { intros u j Hu. inversion Hu; subst. match goal with H : known G _ u _ |- _ => now destruct (known_same _ _ _ _ _ _ HT H) end. }
  inversion H as [| |? s0 ? ? ? He Hm|? ? ? He E|? ? ? He E| | | | | | | | | | | | | | | | | | | | | | | | | | | | | | | | |]; subst.
  - assert (E : s0 = S); [|now subst s0]. clear - He HV. revert HV He. generalize (cown "target"). intros tg HV He.
    inversion He; subst; match goal with H : has so G tg _ _ |- _ => apply HV in H; try discriminate H end. congruence.
  - vm_compute in Hf. discriminate.
  - vm_compute in Hf. discriminate.
Qed.

(** With the library date.h an optional date is not parsed: what is optional is no date. *)
Definition optional_date : jval := with_cpp [("properties", obj [("opened", property [("type", txt "date"); ("optional", JBool true)])])]%string.
Theorem C62_cpp_optional_date_refuted : exists v s cpp,
  document_of s v /\ sc_cpp s = Some cpp /\ cpp_validate (sc_graph s) = Ok [] /\ graph_apart upper_camel (sc_graph s) /\ lower_properties (sc_graph s) /\
  exists f, In f (cpp_functions cpp (sc_graph s)) /\ ~ soundly_typed (cpp_source cpp (sc_graph s)) f.
Proof.
  exists optional_date. by_document optional_date s D. eexists _, _. split; [exact D|]. split; [reflexivity|]. split; [vm_compute; reflexivity|].
  split; [intros n i []|]. split.
  { intros ps p Hps Hp. vm_compute in Hps. destruct Hps as [<-|[]]. cbn in Hp. destruct Hp as [<-|[]]. reflexivity. }
  match goal with |- exists f, In f (cpp_functions ?cpp (sc_graph ?s)) /\ _ => set (g := sc_graph s); set (c := cpp) end.
  exists (cparse_graph c g). split; [now left|]. intros H. unfold soundly_typed in H.
  cbn [cparse_graph cf_body cf_result cf_params] in H.
  apply if_parts in H as (_ & _ & _ & H). apply if_parts in H as (_ & _ & _ & H). apply if_parts in H as (_ & _ & _ & H).
  apply if_parts in H as (_ & H & _ & _). apply constant_parts in H. apply if_parts in H as (_ & _ & H & _). apply let_parts in H. apply do_parts in H as (t & k & H).
  inversion H; subst. match goal with H : has _ _ (EParse _ _) _ _ |- _ => inversion H; subst; clear H end.
  match goal with H : has _ _ (target_member _) _ _ |- _ => apply (target_parts _ _ (s_ "Shop")) in H; [|repeat (first [apply known_here | apply known_before; [discriminate|]])|reflexivity]; vm_compute in H; injection H as <- end.
  match goal with H : dated _ |- _ => vm_compute in H; intuition discriminate end.
Qed.
Print Assumptions C62_cpp_optional_date_refuted.

(** The functions which parse write the properties in lower case, the structures as they are. *)
Definition capital_property : jval := with_cpp [("properties", obj [("isOpen", property [("type", txt "boolean")])])]%string.
Theorem C62_cpp_capital_refuted : exists v s cpp,
  document_of s v /\ sc_cpp s = Some cpp /\ cpp_validate (sc_graph s) = Ok [] /\ graph_apart upper_camel (sc_graph s) /\
  exists f, In f (cpp_functions cpp (sc_graph s)) /\ ~ soundly_typed (cpp_source cpp (sc_graph s)) f.
Proof.
  exists capital_property. by_document capital_property s D. eexists _, _. split; [exact D|]. split; [reflexivity|]. split; [vm_compute; reflexivity|].
  split; [intros n i []|].
  match goal with |- exists f, In f (cpp_functions ?cpp (sc_graph ?s)) /\ _ => set (g := sc_graph s); set (c := cpp) end.
  exists (cparse_graph c g). split; [now left|]. intros H. unfold soundly_typed in H.
  cbn [cparse_graph cf_body cf_result cf_params] in H.
  apply if_parts in H as (_ & _ & _ & H). apply if_parts in H as (_ & _ & _ & H). apply if_parts in H as (_ & _ & _ & H).
  apply if_parts in H as (_ & _ & H & _). apply constant_parts in H. apply if_parts in H as (_ & _ & H & _). apply assign_parts in H as (t & k & H).
  apply (target_parts _ _ (s_ "Shop")) in H; [|repeat (first [apply known_here | apply known_before; [discriminate|]])|reflexivity]. vm_compute in H. discriminate.
Qed.
Print Assumptions C62_cpp_capital_refuted.

(** The minimum of an integer may lie beyond those of C++: it is no literal. *)
Definition cpp_stars : jval := with_cpp [("properties", obj [("stars", property [("type", txt "integer"); ("minimum", JInt 100000000000000000000)])])]%string.
Theorem C62_cpp_literal_refuted : exists v s cpp,
  document_of s v /\ sc_cpp s = Some cpp /\ cpp_validate (sc_graph s) = Ok [] /\ graph_apart upper_camel (sc_graph s) /\ lower_properties (sc_graph s) /\
  exists f, In f (cpp_functions cpp (sc_graph s)) /\ ~ soundly_typed (cpp_source cpp (sc_graph s)) f.
Proof.
  exists cpp_stars. by_document cpp_stars s D. eexists _, _. split; [exact D|]. split; [reflexivity|]. split; [vm_compute; reflexivity|].
  split; [intros n i []|]. split.
  { intros ps p Hps Hp. vm_compute in Hps. destruct Hps as [<-|[]]. cbn in Hp. destruct Hp as [<-|[]]. reflexivity. }
  match goal with |- exists f, In f (cpp_functions ?cpp (sc_graph ?s)) /\ _ => set (g := sc_graph s); set (c := cpp) end.
  exists (cparse_graph c g). split; [now left|]. intros H. unfold soundly_typed in H.
  cbn [cparse_graph cf_body cf_result cf_params] in H.
  apply if_parts in H as (_ & _ & _ & H). apply if_parts in H as (_ & _ & _ & H). apply if_parts in H as (_ & _ & _ & H).
  apply if_parts in H as (_ & _ & H & _). apply constant_parts in H. apply if_parts in H as (_ & _ & H & _). apply auto_parts in H as (t & H). apply let_parts in H.
  apply if_parts in H as ((u & k & H) & _). inversion H; subst. match goal with H : has _ _ (EOrder _ _ _) _ _ |- _ => inversion H; subst; clear H end.
  match goal with H : has _ _ (ENumber _) _ _ |- _ => inversion H; subst end. match goal with H : literal_fits _ |- _ => unfold literal_fits in H; cbn in H; lia end.
Qed.
Print Assumptions C62_cpp_literal_refuted.
