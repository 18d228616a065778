(** Theorems: the generated C++ header declares the functions which the source defines (C65). *)
From Coq Require Import String List Arith NArith ZArith Bool Lia Permutation.
From Verif Require Import Base M_Naming M_Schema M_Dec M_TypeGraph M_Walk M_Text M_Validate M_LangValid M_AutoID M_GoImports S_Scope M_Scope M_GoScope M_CppScope
  S_TypeGraph S_Conform S_Walk S_Validate S_GoImports S_Imports S_LangValid
  P_Common P_TypeGraph P_Naming P_Walk P_Validate P_ValidateType P_ValidateDoc P_NoRaise P_ParseInv P_Parsed P_LangValid P_GoImports P_Scope P_PyScope P_BlockScope P_GoFunctions
  P_CppScope P_CppSource T_Validate T_LangValid T_EndToEnd T_GoImports T_Imports T_GoScope T_CppScope
  S_CppTyping M_CppTyping P_CppTyping P_CppPackage M_CppHeader.
Import ListNotations.
Open Scope list_scope.
Local Open Scope nat_scope.

(** C65, for all schemas: the declarations are, up to their order, the names and the types of
    the functions which the source defines and which the schema is about. *)
Theorem C65_cpp_declared cpp g :
  Permutation (header_declarations g) (map (fun f => (cf_name f, csignature_of f)) (cpp_functions cpp g)).
Proof.
  unfold header_declarations, parse_definitions, serialize_definitions, cpp_functions.
  rewrite !map_app, !map_map. cbn [map app]. apply Permutation_cons.
  - unfold csignature_of. cbn. reflexivity.
  - assert (HP : forall x : str * list cls * list prop, (cf_name (cparse_composite cpp g (fst (fst x)) (snd (fst x)) (snd x)),
        csignature_of (cparse_composite cpp g (fst (fst x)) (snd (fst x)) (snd x))) = declare_parser (fst (fst x)) (snd (fst x))).
    { intros [[n rs] ps]. unfold csignature_of, declare_parser, cparse_composite, parser_params. cbn [fst snd cf_name cf_params cf_result].
      now rewrite !map_app, map_map. }
    rewrite (map_ext _ _ HP). clear HP.
    assert (HS : forall x : str * list cls * list prop, (cf_name (cserializer cpp (fst (fst x)) (snd x)), csignature_of (cserializer cpp (fst (fst x)) (snd x))) =
        (cpp_serializer_name (fst (fst x)), CSig [ByReference (CNamed (ucamel (fst (fst x))))] t_value)).
    { now intros [[n rs] ps]. }
    rewrite (map_ext _ _ HS). clear HS.
    rewrite <- (map_map (fun x => fst (fst x)) (fun n => (cpp_serializer_name n, CSig [ByReference (CNamed (ucamel n))] t_value))).
    rewrite composite_names. unfold cpp_composites. rewrite !map_app, !map_map. cbn [fst snd map].
    rewrite <- !app_assoc. set (E := map _ (combine (g_embeds g) _)). set (C := map _ (combine (g_classes g) _)).
    rewrite (app_assoc E C), (app_assoc C E). apply Permutation_app; [apply Permutation_app_comm|].
    rewrite app_assoc. apply Permutation_cons_append.
Qed.
Print Assumptions C65_cpp_declared.

(** The name and the parameters, by which C++ tells functions apart *)
Definition overload_key (d : str * csignature) : str * list param := (fst d, cs_params (snd d)).

(** What a function is about: the structure which it parses or serializes *)
Definition about (ps : list param) : option (str + str) :=
  match rev ps with
  | [ByReference (CNamed n)] => Some (inr n)
  | _ :: ByValue (CPointer _ (CNamed n)) :: _ => Some (inl n)
  | _ => None
  end.
Lemma about_parser n rs : about (map snd (parser_params n rs)) = Some (inl (ucamel n)).
Proof. unfold about, parser_params. rewrite !map_app, !rev_app_distr. reflexivity. Qed.

Lemma NoDup_declared cpp g : NoDup (map ucamel (structure_names g)) ->
  NoDup (map overload_key (so_functions (cpp_source cpp g))).
Proof.
  intros HN. cbn [cpp_source so_functions]. rewrite map_app. apply NoDup_app_intro.
  - apply (NoDup_map_inv fst). rewrite map_map. cbn [overload_key fst]. unfold cpp_helpers.
    destruct (cpp_needs_duration g), (cpp_ctime cpp && cpp_needs_date g); cbn [map app fst];
      repeat constructor; intros H; apply mem_In in H; vm_compute in H; discriminate.
  - apply (NoDup_map_inv (fun k => about (snd k))). unfold cpp_functions. rewrite !map_app, !map_map. cbn [map overload_key fst snd app].
    change (about (cs_params (csignature_of (cparse_graph cpp g)))) with (about (map snd (parser_params (g_name g) []))).
    rewrite about_parser. change (about (cs_params (csignature_of (cserialize_graph cpp g)))) with (Some (inr (ucamel (g_name g)) : str + str)).
    rewrite (map_ext _ (fun x => Some (inl (ucamel (fst (fst x))) : str + str))) by (intros [[n rs] ps]; apply about_parser).
    rewrite (map_ext (fun x => about (cs_params (csignature_of (cserializer cpp (fst (fst x)) (snd x)))))
      (fun x => Some (inr (ucamel (fst (fst x))) : str + str))) by reflexivity.
    rewrite <- (map_map (fun x => fst (fst x)) (fun n => Some (inl (ucamel n) : str + str))).
    rewrite <- (map_map (fun x => fst (fst x)) (fun n => Some (inr (ucamel n) : str + str))). rewrite composite_names.
    unfold structure_names in HN. cbn [map] in HN. rewrite <- (map_map ucamel (fun i => Some (inl i : str + str))), <- (map_map ucamel (fun i => Some (inr i : str + str))).
    set (l := map ucamel _) in *. set (i := ucamel (g_name g)) in *.
    change (NoDup (map (fun i => Some (inl i : str + str)) (i :: l) ++ (map (fun i => Some (inr i : str + str)) l ++ map (fun i => Some (inr i : str + str)) [i]))).
    rewrite <- map_app. apply NoDup_app_intro.
    + apply FinFun.Injective_map_NoDup; [|exact HN]. intros x y E. now injection E.
    + apply FinFun.Injective_map_NoDup; [intros x y E; now injection E|]. apply (Permutation_NoDup (Permutation_cons_append l i) HN).
    + intros x Hx Hy. apply in_map_iff in Hx as (u & <- & _). apply in_map_iff in Hy as (w & E & _). discriminate.
  - intros k Hk Hk'. apply in_map_iff in Hk as ([x s'] & <- & Hk). apply in_map_iff in Hk' as ([y s''] & E & Hk').
    unfold overload_key in E. cbn [fst snd] in E. injection E as <- _.
    apply (helper_other cpp g y s''); [|exact Hk']. apply (helper_in cpp g y s'). now right.
Qed.

(** C65: in all documents which pass the validations, if the graph is not called like another
    structure, each function which the header declares is defined once in the source, with the
    same name, the same parameters and the same result; each function of the source which is
    about the schema is declared; and no two functions of the header or of the source have the
    same name and the same parameters. *)
Theorem C65_cpp_partial v s cpp :
  document_of s v -> sc_cpp s = Some cpp -> cpp_validate (sc_graph s) = Ok [] -> graph_apart upper_camel (sc_graph s) ->
  (forall x sg, In (x, sg) (header_declarations (sc_graph s)) ->
     exists! f, In f (cpp_functions cpp (sc_graph s)) /\ cf_name f = x /\ csignature_of f = sg) /\
  (forall f, In f (cpp_functions cpp (sc_graph s)) -> In (cf_name f, csignature_of f) (header_declarations (sc_graph s))) /\
  NoDup (map overload_key (header_declarations (sc_graph s))) /\
  NoDup (map overload_key (so_functions (cpp_source cpp (sc_graph s)))).
Proof.
  intros Hd Hcpp Hv Hapart. set (g := sc_graph s) in *.
  assert (HA : graph_apart camel_composite g) by (intros n i Hn [_ Hi] [_ Hj]; exact (Hapart n i Hn Hi Hj)).
  destruct (C38_no_clash_partial g HA Hv) as [(ns & F1 & N1 & _) _].
  assert (Htypes : NoDup (map ucamel (structure_names g))).
  { replace (map ucamel (structure_names g)) with ns; [exact N1|]. clear -F1. unfold structure_names.
    induction F1 as [|n i l ns [_ H] _ IH]; [reflexivity|]. cbn [map]. now rewrite (ucamel_right _ _ H), IH. }
  assert (ND := NoDup_declared cpp g Htypes).
  assert (NF : NoDup (map overload_key (map (fun f => (cf_name f, csignature_of f)) (cpp_functions cpp g)))).
  { cbn [cpp_source so_functions] in ND. rewrite map_app in ND. now apply NoDup_app_parts in ND. }
  assert (PE := C65_cpp_declared cpp g).
  split; [|split; [|split; [|exact ND]]].
  - intros x sg H. apply (Permutation_in _ PE) in H. apply in_map_iff in H as (f & [= <- <-] & Hf).
    exists f. split; [now split|]. intros f' (Hf' & E1 & E2). rewrite map_map in NF.
    assert (E : overload_key (cf_name f, csignature_of f) = overload_key (cf_name f', csignature_of f')) by now rewrite E1, E2.
    clear -NF Hf Hf' E. induction (cpp_functions cpp g) as [|a l IH]; [destruct Hf|]. cbn [map] in NF. inversion NF as [|? ? Hn Hl]; subst.
    destruct Hf as [->|Hf], Hf' as [->|Hf'].
    + reflexivity.
    + exfalso. apply Hn. rewrite E. apply (in_map (fun f => overload_key (cf_name f, csignature_of f)) _ _ Hf').
    + exfalso. apply Hn. rewrite <- E. apply (in_map (fun f => overload_key (cf_name f, csignature_of f)) _ _ Hf).
    + now apply IH.
  - intros f Hf. apply (Permutation_in _ (Permutation_sym PE)). apply (in_map (fun f => (cf_name f, csignature_of f)) _ _ Hf).
  - apply (Permutation_NoDup (Permutation_map overload_key (Permutation_sym PE)) NF).
Qed.
Print Assumptions C65_cpp_partial.

Ltac apart := let Hi := fresh in let Hj := fresh in let Hn := fresh in
  intros ? ? Hn Hi Hj; apply ucamel_upper in Hi, Hj; vm_compute in Hn; rewrite <- Hi in Hj; repeat (destruct Hn as [<-|Hn]; [vm_compute in Hj; discriminate Hj|]); destruct Hn.

(** A class with references to two classes: the declaration takes their registries. *)
Definition linked_shop : jval := with_cpp
  [("classes", JArr [plain_class "Item" []; plain_class "Clerk" [("properties", obj [("sells", property [("type", txt "array"); ("values", obj [("type", txt "Item")])])])];
                     plain_class "Sale" [("properties", obj [("item", property [("type", txt "Item")]); ("clerk", property [("type", txt "Clerk")])])]])]%string.
Example C65_cpp_nontrivial : exists s cpp, document_of s linked_shop /\ sc_cpp s = Some cpp /\ cpp_validate (sc_graph s) = Ok [] /\
  graph_apart upper_camel (sc_graph s) /\
  In (s_ "sale_from", CSig [ByReference t_value; ByReference (CMap (CUnique (CNamed (s_ "Clerk")))); ByReference (CMap (CUnique (CNamed (s_ "Item"))));
       ByValue CString; ByValue (CPointer false (CNamed (s_ "Sale"))); ByValue (CPointer false t_parse_errors)] CVoid) (header_declarations (sc_graph s)).
Proof.
  by_document linked_shop s D. eexists _, _. split; [exact D|]. split; [reflexivity|]. split; [vm_compute; reflexivity|].
  match goal with |- ?P /\ _ => assert (A : P) by apart end. split; [exact A|]. vm_compute. repeat (first [left; reflexivity|right]).
Qed.

(** The validation does not compare the name of the graph with those of the classes: both
    structures are then parsed by functions which C++ does not tell apart. *)
Definition shop_in_shop : jval :=
  obj [("name", txt "Big_Shop"); ("description", txt "defines a shop.");
       ("cpp", obj [("namespace", txt "some::shop"); ("path_as", txt "boost::filesystem::path"); ("optional_as", txt "std::optional");
                    ("datetime_library", txt "date.h")]);
       ("classes", JArr [plain_class "Big_shop" []])]%string.
Theorem C65_cpp_graph_refuted : exists v s cpp,
  document_of s v /\ sc_cpp s = Some cpp /\ cpp_validate (sc_graph s) = Ok [] /\
  ~ NoDup (map overload_key (so_functions (cpp_source cpp (sc_graph s)))).
Proof.
  exists shop_in_shop. by_document shop_in_shop s D. eexists _, _. split; [exact D|]. split; [reflexivity|]. split; [vm_compute; reflexivity|].
  vm_compute. intros H. apply NoDup_cons_iff in H as [_ H]. apply NoDup_cons_iff in H as [_ H]. apply NoDup_cons_iff in H as [H _]. apply H. now left.
Qed.
Print Assumptions C65_cpp_graph_refuted.
