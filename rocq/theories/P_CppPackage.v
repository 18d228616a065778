(** Proofs about the types in the generated C++ functions, continued: the functions and the
    source. *)
From Coq Require Import String List Arith NArith ZArith Bool Lia.
From Verif Require Import Base M_Naming M_Schema M_Dec M_TypeGraph M_Walk M_GoImports M_AutoID S_Scope M_Scope M_GoScope M_CppScope
  S_TypeGraph S_Conform S_Walk S_GoImports S_LangValid P_Common P_AutoID P_TypeGraph P_Walk T_Walk P_GoImports P_References P_Naming P_LangValid P_Scope P_PyScope P_BlockScope P_GoScope P_GoFunctions P_GoPackage P_CppScope
  S_CppTyping M_CppTyping P_CppTyping.
Import ListNotations.
Open Scope list_scope.
Local Open Scope nat_scope.

(** A variable which is always declared with the same type *)
Lemma known_all (G : cenv) x t c : In (x, (t, c)) G -> (forall u, In (x, u) G -> u = (t, c)) -> known G x t c.
Proof.
  induction G as [|[y u] G IH]; intros Hin Hall; [destruct Hin|]. destruct (thing_eq_dec x y) as [<-|Hn].
  - rewrite (Hall u) by now left. apply known_here.
  - apply known_before; [exact Hn|]. apply IH; [destruct Hin as [E|Hin]; [congruence|exact Hin]|]. intros v Hv. apply Hall. now right.
Qed.
Lemma NoDup_map_eq {A B} (f : A -> B) l x y : NoDup (map f l) -> In x l -> In y l -> f x = f y -> x = y.
Proof.
  induction l as [|a l IH]; intros Hn Hx Hy E; [destruct Hx|]. inversion Hn as [|? ? Ha Hl]; subst. cbn in Hx, Hy.
  destruct Hx as [<-|Hx], Hy as [<-|Hy]; [reflexivity| | |now apply IH].
  - exfalso. apply Ha. rewrite E. now apply in_map.
  - exfalso. apply Ha. rewrite <- E. now apply in_map.
Qed.

Section Source.
  Variable cpp : cpp_conf.
  Variable g : graph.
  Hypothesis HR : resolved g.
  Hypothesis HN : NoDup (map c_name (g_classes g)).
  Hypothesis HNe : NoDup (map e_name (g_embeds g)).
  Hypothesis Hnames : NoDup (map ucamel (structure_names g)).
  Hypothesis Hjson : forall n, In n (structure_names g) -> CNamed (ucamel n) <> t_value.
  Hypothesis Hcfields : forall c, In c (g_classes g) -> NoDup (s_ "id" :: map p_name (c_props c)).
  Hypothesis Hefields : forall e, In e (g_embeds g) -> NoDup (map p_name (e_props e)).
  Hypothesis Hgfields : NoDup (map p_name (g_props g) ++ map (fun c => lower (c_plural c)) (g_classes g)).
  Hypothesis Hlower : forall ps p, In ps (composites g) -> In p ps -> lower (p_name p) = p_name p.
  Hypothesis Hdated : forall ps p, In ps (composites g) -> In p ps -> p_optional p = true -> undated cpp (p_type p).
  Hypothesis Hfit : forall t ref, value_type g t ref -> literals_fit t.
  Hypothesis Hpath : In (cc_path_as cpp) paths.
  Hypothesis Hkey : forall c, In c (g_classes g) -> literal_fits (Z.of_nat (length (s_ "/" ++ instances_key c))).

  Notation so := (cpp_source cpp g).
  Notation has := (has so).
  Notation applies := (applies so).
  Notation cty := (cpp_ty cpp).

  (** * What the source declares *)
  Definition parsers : list (str * list cls) := (g_name g, []) :: map fst (cpp_composites g).
  Lemma combine_fst {A} (l : list A) k : map fst (combine l (List.seq k (length l))) = l.
  Proof. revert k. induction l as [|a l IH]; intros k; [reflexivity|]. cbn [length List.seq combine map fst]. now rewrite IH. Qed.
  Lemma composite_names : map (fun x => fst (fst x)) (cpp_composites g) = map c_name (g_classes g) ++ map e_name (g_embeds g).
  Proof.
    unfold cpp_composites. rewrite map_app, !map_map. cbn [fst].
    rewrite <- (map_map fst c_name), <- (map_map fst e_name), !combine_fst. reflexivity.
  Qed.
  Lemma parser_names : map (fun x => ucamel (fst x)) parsers = map ucamel (structure_names g).
  Proof. unfold parsers, structure_names. cbn [map fst]. f_equal. rewrite <- composite_names, !map_map. reflexivity. Qed.
  Definition parser_sig (name : str) (references : list cls) : csignature := CSig (map snd (parser_params name references)) CVoid.
  Definition serializer_sig (name : str) : csignature := CSig [ByReference (CNamed (ucamel name))] t_value.
  Definition declared_functions : list (str * csignature) := map (fun f => (cf_name f, csignature_of f)) (cpp_functions cpp g).

  Lemma declared_spec x s : In (x, s) declared_functions ->
    (exists name refs, In (name, refs) parsers /\ x = cpp_from name /\ s = parser_sig name refs) \/
    (exists name, In name (structure_names g) /\ x = cpp_serializer_name name /\ s = serializer_sig name).
  Proof.
    intros H. apply in_map_iff in H as (f & [= <- <-] & Hf). unfold cpp_functions in Hf. rewrite !in_app_iff in Hf.
    destruct Hf as [[<-|[]]|[Hf|[Hf|[<-|[]]]]].
    - left. exists (g_name g), []. split; [now left|]. split; reflexivity.
    - left. apply in_map_iff in Hf as ([[n r] ps] & <- & Hx). exists n, r. split; [right; now apply (in_map fst) in Hx|]. split; reflexivity.
    - right. apply in_map_iff in Hf as ([[n r] ps] & <- & Hx). exists n. split; [|split; reflexivity].
      right. rewrite <- composite_names. apply (in_map (fun x => fst (fst x))) in Hx. exact Hx.
    - right. exists (g_name g). split; [now left|]. split; reflexivity.
  Qed.
  Lemma parser_declared name refs : In (name, refs) parsers -> In (cpp_from name, parser_sig name refs) declared_functions.
  Proof.
    intros H. unfold declared_functions, cpp_functions. rewrite map_app. apply in_or_app. destruct H as [[= <- <-]|H]; [left; now left|]. right.
    rewrite map_app. apply in_or_app. left. apply in_map_iff in H as ([[n r] ps] & [= <- <-] & Hx). rewrite map_map.
    apply in_map_iff. exists (n, r, ps). split; [reflexivity|exact Hx].
  Qed.
  Lemma serializer_declared name : In name (structure_names g) -> In (cpp_serializer_name name, serializer_sig name) declared_functions.
  Proof.
    intros H. unfold declared_functions, cpp_functions. rewrite !map_app, !in_app_iff. destruct H as [<-|H]; [do 3 right; now left|]. do 2 right. left.
    rewrite <- composite_names in H. apply in_map_iff in H as (x & <- & Hx). rewrite map_map. apply in_map_iff. exists x. split; [reflexivity|exact Hx].
  Qed.

  Definition helper_names : list str := keys library_calls ++ map s_ ["message"; "value_type_to_string"; "duration_from_string"; "duration_to_string"; "tm_to_string"]%string.
  Lemma helpers_plain x : In x helper_names -> ends (s_ "_from") x = false /\ begins (s_ "serialize_") x = false.
  Proof.
    intros H. assert (K : forallb (fun x => negb (ends (s_ "_from") x) && negb (begins (s_ "serialize_") x)) helper_names = true) by (vm_compute; reflexivity).
    rewrite forallb_forall in K. apply K in H. apply andb_true_iff in H as [H1 H2]. split; now apply negb_true_iff.
  Qed.
  Lemma helper_other x s : In x helper_names -> ~ In (x, s) declared_functions.
  Proof.
    intros H Hd. apply helpers_plain in H as [H1 H2]. apply declared_spec in Hd as [(n & r & _ & -> & _)|(n & _ & -> & _)].
    - unfold cpp_from in H1. now rewrite ends_app in H1.
    - unfold cpp_serializer_name in H2. now rewrite begins_app in H2.
  Qed.
  Lemma helper_in x s : In (x, s) library_calls \/ In (x, s) (cpp_helpers cpp g) -> In x helper_names.
  Proof.
    unfold helper_names. rewrite in_app_iff. intros [H|H]; [left; now apply (in_map fst) in H|]. right. unfold cpp_helpers in H.
    apply (in_map fst) in H. cbn [fst] in H. destruct (cpp_needs_duration g), (cpp_ctime cpp && cpp_needs_date g); cbn [map app fst] in H; cbn [map];
      repeat (destruct H as [<-|H]; [repeat (first [left; reflexivity | right])|]); destruct H.
  Qed.
  Lemma overload_cases f s : overload so f s -> (In (f, s) library_calls \/ In (f, s) (cpp_helpers cpp g)) \/ In (f, s) declared_functions.
  Proof. intros [H|H]; [left; now left|]. cbn [cpp_source so_functions] in H. apply in_app_or in H as [H|H]; [left; now right|now right]. Qed.
  (** The functions which the schema does not change are not overloaded. *)
  Definition all_helpers : list (str * csignature) :=
    library_calls ++
    [(s_ "message", CSig [ByValue CText; ByValue CUnsigned; ByValue CString] CString);
     (s_ "value_type_to_string", CSig [ByValue t_value_type] CString);
     (s_ "duration_from_string", CSig [ByReference CString; ByValue (CPointer false CString)] t_nanoseconds);
     (s_ "duration_to_string", CSig [ByReference t_nanoseconds] CString);
     (s_ "tm_to_string", CSig [ByReference t_tm; ByValue CText] CString)].
  Lemma all_helpers_NoDup : NoDup (keys all_helpers).
  Proof. repeat constructor; intros H; apply mem_In in H; vm_compute in H; discriminate. Qed.
  Lemma helper_all f s : In (f, s) library_calls \/ In (f, s) (cpp_helpers cpp g) -> In (f, s) all_helpers.
  Proof.
    unfold all_helpers. rewrite in_app_iff. intros [H|H]; [now left|]. right. unfold cpp_helpers in H.
    destruct (cpp_needs_duration g), (cpp_ctime cpp && cpp_needs_date g); cbn [app In] in *; tauto.
  Qed.
  Lemma helper_unique f s : In (f, s) library_calls \/ In (f, s) (cpp_helpers cpp g) -> unique so f s.
  Proof.
    intros H. split.
    - destruct H as [H|H]; [now left|]. right. cbn [cpp_source so_functions]. apply in_or_app. now left.
    - intros s' H'. apply overload_cases in H' as [H'|H']; [|exfalso; apply (helper_other f s'); [now apply helper_in with s|exact H']].
      apply helper_all in H, H'. assert (E : lookup f all_helpers = Some s) by (apply In_lookup; [apply all_helpers_NoDup|exact H]).
      apply (In_lookup f all_helpers s' all_helpers_NoDup) in H'. congruence.
  Qed.
  Lemma library_unique f s : In (f, s) library_calls -> unique so f s.
  Proof. intros H. apply helper_unique. now left. Qed.
  Lemma message_unique : unique so (s_ "message") (CSig [ByValue CText; ByValue CUnsigned; ByValue CString] CString).
  Proof. apply helper_unique. right. now left. Qed.
  Lemma type_unique : unique so (s_ "value_type_to_string") (CSig [ByValue t_value_type] CString).
  Proof. apply helper_unique. right. right. now left. Qed.

  (** ** The parsers and the serializers can be called. *)
  Lemma excluded_app G a b ps qs : length a = length ps -> excluded so G b qs -> excluded so G (a ++ b) (ps ++ qs).
  Proof.
    revert ps. induction a as [|e a IH]; intros [|p ps] Hl H; try discriminate; [exact H|]. cbn [app]. apply excluded_later. apply IH; [now injection Hl|exact H].
  Qed.
  Lemma parser_called name refs : In (name, refs) parsers -> parser_callable so name refs.
  Proof.
    intros Hp G v regs r tg e Hlen Ha (k & Htg). change CVoid with (cs_result (parser_sig name refs)).
    apply has_call; [right; apply in_or_app; right; now apply parser_declared|exact Ha|].
    intros s' Hs'. apply overload_cases in Hs' as [Hs'|Hs'].
    { exfalso. apply helper_in in Hs'. apply helpers_plain in Hs' as [H _]. unfold cpp_from in H. now rewrite ends_app in H. }
    apply declared_spec in Hs' as [(m & refs' & Hm & _ & ->)|(m & _ & _ & ->)].
    - destruct (list_eq_dec N.eq_dec (ucamel m) (ucamel name)) as [E|E].
      + left. assert (X : (m, refs') = (name, refs)) by (apply (NoDup_map_eq (fun x => ucamel (fst x)) parsers); [rewrite parser_names; exact Hnames|exact Hm|exact Hp|exact E]).
        injection X as -> ->. reflexivity.
      + right. unfold parser_sig, parser_params. cbn [cs_params]. rewrite !map_app. cbn [map snd app].
        destruct (Nat.eq_dec (length refs) (length refs')) as [El|El].
        * apply excluded_later. apply excluded_app; [now rewrite !map_length, Hlen|]. apply excluded_later. eapply excluded_here; [exact Htg|].
          intros HC. cbn [fits] in HC. inversion HC as [? ? X Y|? X Y|? ? ? X Y| | | | |? ? X Y]; subst; try congruence.
          cbn in X. intuition discriminate.
        * apply excluded_number. cbn [length]. rewrite !app_length, !map_length. cbn [length]. lia.
    - right. unfold serializer_sig. cbn [cs_params]. apply excluded_number. cbn [length]. rewrite app_length. cbn [length]. lia.
  Qed.
  Lemma serializer_called name : In name (structure_names g) -> serializer_callable so name.
  Proof.
    intros Hn G e k He. change t_value with (cs_result (serializer_sig name)).
    apply has_call; [right; apply in_or_app; right; now apply serializer_declared|eapply applies_arg; [exact He|now left|constructor]|].
    intros s' Hs'. apply overload_cases in Hs' as [Hs'|Hs'].
    { exfalso. apply helper_in in Hs'. apply helpers_plain in Hs' as [_ H]. unfold cpp_serializer_name in H. now rewrite begins_app in H. }
    apply declared_spec in Hs' as [(m & refs' & Hm & _ & ->)|(m & Hm & _ & ->)].
    - right. unfold parser_sig, parser_params. cbn [cs_params]. apply excluded_number. rewrite !map_app, !app_length. cbn [map length]. lia.
    - destruct (list_eq_dec N.eq_dec (ucamel m) (ucamel name)) as [E|E]; [left; unfold serializer_sig; now rewrite E|]. right. unfold serializer_sig. cbn [cs_params].
      eapply excluded_here; [exact He|]. intros [HC|HC]; [congruence|]. inversion HC as [? ? X Y|? X Y|? ? ? X Y| | | | |? ? X Y]; subst; try congruence.
      + cbn in X. intuition discriminate.
      + apply (Hjson m Hm). unfold t_value. congruence.
  Qed.

  (** ** The structures *)
  Lemma struct_keys : NoDup (keys (cpp_structs cpp g)).
  Proof.
    apply (Permutation.Permutation_NoDup (l := map ucamel (structure_names g))); [|exact Hnames].
    unfold keys, cpp_structs, structure_names. rewrite !map_app, !map_map. cbn [map fst]. rewrite !map_app, !map_map.
    apply Permutation.perm_trans with ((map (fun x => ucamel (c_name x)) (g_classes g) ++ map (fun x => ucamel (e_name x)) (g_embeds g)) ++ [ucamel (g_name g)]).
    - apply Permutation.Permutation_cons_append.
    - rewrite app_assoc. apply Permutation.Permutation_app_tail, Permutation.Permutation_app_comm.
  Qed.
  Lemma struct_known S fields : In (S, fields) (cpp_structs cpp g) -> lookup S (so_structs so) = Some fields.
  Proof. intros H. now apply In_lookup; [apply struct_keys|]. Qed.
  Lemma member_known S fields f t : In (S, fields) (cpp_structs cpp g) -> NoDup (keys fields) -> In (f, t) fields -> member_type so S f = Some t.
  Proof. intros H Hn Hf. unfold member_type. rewrite (struct_known _ _ H). now apply In_lookup. Qed.
  Lemma members_keys ps : keys (map (cmember cpp) ps) = map p_name ps.
  Proof. unfold keys. now rewrite !map_map. Qed.
  Lemma class_struct c : In c (g_classes g) -> In (ucamel (c_name c), (s_ "id", CString) :: map (cmember cpp) (c_props c)) (cpp_structs cpp g).
  Proof. intros H. unfold cpp_structs. rewrite !in_app_iff. right. left. now apply (in_map (fun c => (ucamel (c_name c), (s_ "id", CString) :: map (cmember cpp) (c_props c)))). Qed.
  Lemma class_keys c : In c (g_classes g) -> NoDup (keys ((s_ "id", CString) :: map (cmember cpp) (c_props c))).
  Proof. intros H. cbn [keys map fst]. fold (keys (map (cmember cpp) (c_props c))). rewrite members_keys. now apply Hcfields. Qed.
  Lemma class_id c : In c (g_classes g) -> member_type so (ucamel (c_name c)) (s_ "id") = Some CString.
  Proof. intros H. eapply member_known; [now apply class_struct|now apply class_keys|now left]. Qed.
  Lemma class_member c p : In c (g_classes g) -> In p (c_props c) -> member_read cpp so (ucamel (c_name c)) p.
  Proof. intros H Hp. eapply member_known; [now apply class_struct|now apply class_keys|]. right. apply (in_map (cmember cpp)) in Hp. exact Hp. Qed.
  Lemma embed_member e p : In e (g_embeds g) -> In p (e_props e) -> member_read cpp so (ucamel (e_name e)) p.
  Proof.
    intros H Hp. apply (member_known _ (map (cmember cpp) (e_props e))); [|rewrite members_keys; now apply Hefields|apply (in_map (cmember cpp)) in Hp; exact Hp].
    unfold cpp_structs. rewrite !in_app_iff. left. now apply (in_map (fun e => (ucamel (e_name e), map (cmember cpp) (e_props e)))).
  Qed.
  Definition graph_members : list (str * ctype) := map (cmember cpp) (g_props g) ++ map (fun c => (lower (c_plural c), t_instances c)) (g_classes g).
  Lemma graph_struct : In (ucamel (g_name g), graph_members) (cpp_structs cpp g).
  Proof. unfold cpp_structs. rewrite !in_app_iff. right. right. now left. Qed.
  Lemma graph_keys : NoDup (keys graph_members).
  Proof. unfold graph_members, keys. rewrite map_app. fold (keys (map (cmember cpp) (g_props g))). rewrite members_keys, map_map. exact Hgfields. Qed.
  Lemma graph_member p : In p (g_props g) -> member_read cpp so (ucamel (g_name g)) p.
  Proof. intros Hp. eapply member_known; [apply graph_struct|apply graph_keys|]. apply in_or_app. left. apply (in_map (cmember cpp)) in Hp. exact Hp. Qed.
  Lemma registry_known c : In c (g_classes g) -> member_type so (ucamel (g_name g)) (lower (c_plural c)) = Some (t_instances c).
  Proof. intros Hc. eapply member_known; [apply graph_struct|apply graph_keys|]. apply in_or_app. right. now apply (in_map (fun c => (lower (c_plural c), t_instances c))). Qed.
  Lemma member_is_ready S ps p : In ps (composites g) -> In p ps -> member_read cpp so S p -> member_ready cpp so S p.
  Proof. intros H1 H2 H. split; [|now apply Hdated with ps]. rewrite (Hlower ps p H1 H2). exact H. Qed.
  Lemma id_regex c : In c (g_classes g) -> forall p, c_id_pattern c = Some p -> constant_type so (id_constant c) = Some t_regex.
  Proof.
    intros Hc p Ep. unfold constant_type.
    destruct (lookup (id_constant c) library_constants) as [t|] eqn:E.
    { exfalso. apply lookup_In in E. apply (in_map fst) in E. cbn [fst] in E.
      assert (K : forallb (fun x => negb (ends (s_ "::kID") x)) (map fst library_constants) = true) by (vm_compute; reflexivity).
      rewrite forallb_forall in K. apply K in E. unfold id_constant in E. now rewrite ends_app in E. }
    cbn [cpp_source so_constants]. assert (HA : forall x t, In (x, t) (cpp_constants g) -> t = t_regex).
    { intros x t H. apply in_flat_map in H as (d & _ & H). destruct (c_id_pattern d); [|destruct H]. destruct H as [[= _ <-]|[]]. reflexivity. }
    assert (HI : In (id_constant c, t_regex) (cpp_constants g)).
    { apply in_flat_map. exists c. split; [exact Hc|]. rewrite Ep. now left. }
    destruct (lookup (id_constant c) (cpp_constants g)) as [t|] eqn:El; [apply lookup_In in El; now rewrite (HA _ _ El)|].
    exfalso. clear - HI El. induction (cpp_constants g) as [|[k v] l IH]; [destruct HI|]. cbn [lookup] in El. destruct (str_eqb _ k) eqn:Ek; [discriminate|].
    destruct HI as [[= -> ->]|HI]; [now rewrite str_eqb_refl in Ek|now apply IH].
  Qed.

  (** * The types of the properties are supported *)
  Lemma duration_needed' ref : value_type g TDuration ref -> cpp_needs_duration g = true.
  Proof. intros H. unfold cpp_needs_duration. apply graph_needs_spec; try discriminate; [exact HR|exists TDuration, ref; now split]. Qed.
  Lemma embed_parser n : find_embed g n <> None -> In (n, embed_references g n) parsers.
  Proof.
    intros H. destruct (find_embed g n) as [e|] eqn:E; [|congruence]. apply find_some in E as [He En]. apply str_eqb_eq in En as <-.
    apply In_nth_error in He as (j & Hj). right. unfold cpp_composites. rewrite map_app. apply in_or_app. right. rewrite map_map. cbn [fst].
    apply in_map_iff. exists (e, length (g_classes g) + j). split; [|now apply nth_combine_seq]. cbn [fst snd].
    unfold embed_references. rewrite (position_nth (e_name e) _ HNe j) by now rewrite nth_error_map, Hj. reflexivity.
  Qed.
  Lemma class_parser c k : nth_error (g_classes g) k = Some c -> In (c_name c, references_of g k) parsers.
  Proof.
    intros H. right. unfold cpp_composites. rewrite map_app. apply in_or_app. left. rewrite map_map. cbn [fst].
    apply in_map_iff. exists (c, k). split; [reflexivity|]. now apply (nth_combine_seq _ 0).
  Qed.
  Lemma supported_value' (reg : cls -> Prop) t : forall ref, value_type g t ref -> ty_resolved g t ->
    (forall n c, In n (classes_in t) -> find_class g n = Some c -> reg c) ->
    (forall n c, In n (embeds_in t) -> In c (embed_references g n) -> reg c) -> supported cpp g so reg t.
  Proof.
    induction t; intros ref HV HT HC HE; cbn [supported]; (split; [now apply (Hfit _ ref)|]); try exact I.
    - exact Hpath.
    - apply helper_unique. right. unfold cpp_helpers. rewrite !in_app_iff. right. left. rewrite (duration_needed' ref HV). now left.
    - destruct (value_step g _ t _ HV ltac:(left; eauto)) as (ref' & HV'). now apply (IHt ref').
    - destruct (value_step g _ t _ HV ltac:(right; eauto)) as (ref' & HV'). now apply (IHt ref').
    - cbn in HT. destruct (find_class g name) as [c|] eqn:E; [|congruence]. exists c. split; [reflexivity|]. apply (HC name); [now left|exact E].
    - cbn in HT. split; [now apply parser_called, embed_parser|]. intros c Hc. apply (HE name); [now left|exact Hc].
  Qed.
  Lemma supported_to_value' t : forall ref, value_type g t ref -> ty_resolved g t -> supported_to cpp so t.
  Proof.
    assert (HD : forall t k ref, value_type g t ref -> type_kind t = Some k -> In k [KPrim PDate; KPrim PTime; KPrim PDatetime] -> cpp_ctime cpp = true ->
      unique so (s_ "tm_to_string") (CSig [ByReference t_tm; ByValue CText] CString)).
    { clear t. intros t k ref HV Hk Hin Ec. apply helper_unique. right. unfold cpp_helpers. rewrite !in_app_iff. right. right.
      assert (E : cpp_needs_date g = true); [|rewrite Ec, E; now left]. unfold cpp_needs_date.
      assert (Hn : graph_needs g k = true).
      { apply graph_needs_spec; [exact HR| | | |exists t, ref; split; [exact HV|exact Hk]]; intros ->; cbn in Hin; intuition discriminate. }
      cbn in Hin. destruct Hin as [<-|[<-|[<-|[]]]]; rewrite Hn, ?orb_true_r; reflexivity. }
    induction t; intros ref HV HT; cbn [supported_to]; try exact I.
    - exact Hpath.
    - eapply HD; [exact HV|reflexivity|cbn; tauto].
    - eapply HD; [exact HV|reflexivity|cbn; tauto].
    - eapply HD; [exact HV|reflexivity|cbn; tauto].
    - apply helper_unique. right. unfold cpp_helpers. rewrite !in_app_iff. right. left. rewrite (duration_needed' ref HV). right. now left.
    - destruct (value_step g _ t _ HV ltac:(left; eauto)) as (ref' & HV'). now apply (IHt ref').
    - destruct (value_step g _ t _ HV ltac:(right; eauto)) as (ref' & HV'). now apply (IHt ref').
    - cbn in HT. destruct (find_class g name) as [c|] eqn:E; [|congruence]. apply find_some in E as [Hc E]. apply str_eqb_eq in E as <-. now apply class_id.
    - cbn in HT. destruct (find_embed g name) as [e|] eqn:E; [|congruence]. apply find_some in E as [He E]. apply str_eqb_eq in E as <-.
      apply serializer_called. right. apply in_or_app. right. now apply in_map.
  Qed.

  (** * The functions which parse *)
  Notation sound := (S_CppTyping.sound so).

  Lemma test_object_sound G l : own_at "value" t_value true G -> own_at "ref" CString false G -> errors_at G ->
    sound CVoid false G l -> sound CVoid false G (test_object :: l).
  Proof.
    intros Hv Hr He Hl. apply if_bool; [| |constructor|exact Hl].
    - apply not_has. exists Temporary. apply value_read; [|reflexivity]. exists Constant. apply (has_var so G _ _ true Hv).
    - unfold add_got. apply add_error_sound; [exact library_unique|exact message_unique| | | |].
      + apply known_before; [discriminate|exact He].
      + split; [|constructor]. exists Changeable. apply (has_var so _ _ _ false). apply known_before; [discriminate|exact Hr].
      + apply stringy_textual, type_of_has; [exact type_unique|]. exists Constant. apply (has_var so _ _ _ true). apply known_before; [discriminate|exact Hv].
      + repeat constructor.
  Qed.

  Lemma composite_sound name k r ps :
    nth_error (composites g) k = Some ps -> k < root g -> composite g r ps ->
    (forall p, In p ps -> member_read cpp so (ucamel name) p) ->
    soundly_typed so (cparse_composite cpp g name (references_of g k) ps).
  Proof.
    intros Hk Hroot Hc Hf. destruct (references_of_spec g HR HN k ps Hk Hroot) as (_ & _ & HC & HE).
    set (refs := references_of g k) in *. unfold soundly_typed. cbn [cparse_composite cf_params cf_result cf_body].
    set (params := parser_params name refs). set (G := param_env params).
    assert (Hdecl : forall x p, In (x, p) params -> (forall q, In (x, q) params -> q = p) -> known G x (param_type p) (param_constant p)).
    { intros x p H1 H2. apply known_all.
      - unfold G, param_env. apply -> in_rev. apply in_map_iff. exists (x, p). split; [reflexivity|exact H1].
      - intros u Hu. unfold G, param_env in Hu. apply in_rev in Hu. apply in_map_iff in Hu as ([y q] & [= <- <-] & Hq). now rewrite (H2 q Hq). }
    assert (Hown : forall q p, In (q, p) [("value"%string, ByReference t_value); ("ref"%string, ByValue CString);
        ("target"%string, ByValue (CPointer false (CNamed (ucamel name)))); ("errors"%string, ByValue (CPointer false t_parse_errors))] ->
      known G (Own q) (param_type p) (param_constant p)).
    { intros q p H. apply Hdecl.
      - unfold params, parser_params. rewrite !in_app_iff. cbn in H. cbn [In]. destruct H as [[= <- <-]|[[= <- <-]|[[= <- <-]|[[= <- <-]|[]]]]]; tauto.
      - intros p' Hp'. unfold params, parser_params in Hp'. rewrite !in_app_iff in Hp'. destruct Hp' as [Hp'|[Hp'|Hp']].
        + cbn in H, Hp'. intuition congruence.
        + apply in_map_iff in Hp' as (c & [=] & _).
        + cbn in H, Hp'. intuition congruence. }
    assert (Hv : own_at "value" t_value true G) by (apply (Hown "value"%string (ByReference t_value)); cbn; tauto).
    assert (Hr : own_at "ref" CString false G) by (apply (Hown "ref"%string (ByValue CString)); cbn; tauto).
    assert (Ht : own_at "target" (CPointer false (CNamed (ucamel name))) false G) by (apply (Hown "target"%string (ByValue (CPointer false (CNamed (ucamel name))))); cbn; tauto).
    assert (He : errors_at G) by (apply (Hown "errors"%string (ByValue (CPointer false t_parse_errors))); cbn; tauto).
    apply test_object_sound; try assumption. rewrite <- (app_nil_r (cparse_properties _ _ _ _ _)).
    apply (cparse_properties_sound cpp g so library_unique message_unique type_unique CVoid _ (ucamel name)); try assumption; [reflexivity| |constructor].
    intros p Hp. split; [apply (member_is_ready _ ps); [now apply nth_error_In in Hk|exact Hp|now apply Hf]|].
    destruct (composite_value_type g _ _ _ Hc Hp) as (ref & HV).
    assert (Hreg : forall c, In c refs -> registry_ready so (fun c => EVar (For "registry" (c_name c))) (later 0) G c).
    { intros c Hcr G' E. exists Constant. apply (has_var so G' _ _ true). apply (known_always (later 0) G); [apply later_for| |exact E].
      apply (Hdecl _ (ByReference (t_instances c))).
      - unfold params, parser_params. rewrite !in_app_iff. right. left. now apply (in_map (fun c => (For "registry" (c_name c), ByReference (t_instances c)))).
      - intros u Hu. unfold params, parser_params in Hu. rewrite !in_app_iff in Hu. destruct Hu as [[[=]|[]]|[Hu|Hu]].
        + apply in_map_iff in Hu as (d & [= E1 <-] & _). unfold t_instances. now rewrite E1.
        + cbn in Hu. destruct Hu as [[=]|[[=]|[[=]|[]]]]. }
    apply (supported_value' _ _ ref HV); [now apply (composite_resolved g HR r ps)| |].
    - intros n c Hn Hcl. apply Hreg. now apply (HC p n).
    - intros n c Hn Hcl. apply Hreg. now apply (HE p n Hp Hn).
  Qed.

  (** ** The parser of the graph *)
  Definition graph_own (G : cenv) : Prop :=
    own_at "value" t_value true G /\ own_at "ref" CString false G /\
    own_at "target" (CPointer false (CNamed (ucamel (g_name g)))) false G /\ errors_at G.
  Lemma graph_own_skip G x t : ~ In x [Own "value"; Own "ref"; Own "target"; Own "errors"] -> graph_own G -> graph_own ((x, t) :: G).
  Proof. intros Hx (H1 & H2 & H3 & H4). repeat split; (apply known_before; [intros <-; apply Hx; cbn; tauto|assumption]). Qed.
  Lemma target_registry_has G c : graph_own G -> In c (g_classes g) -> has G (target_registry c) (t_instances c) Changeable.
  Proof.
    intros (_ & _ & Ht & _) Hc. apply has_member with (ucamel (g_name g)); [|now apply registry_known].
    apply (has_deref so G _ false _ Changeable). apply (has_var so G _ _ false Ht).
  Qed.
  Ltac other := let H := fresh in intros H; cbn in H; intuition discriminate.
  Ltac owned := repeat (apply graph_own_skip; [other|]); assumption.

  Lemma it_name_has G : own_at "it" t_iterator false G -> has G it_name CString Temporary.
  Proof. intros H. eapply (read_has so G _ t_iterator Changeable); [apply (has_var so G _ _ false H)|reflexivity]. Qed.
  Lemma one_string G e : stringy so e G -> applies G [e] [ByReference CString].
  Proof. intros H. apply textual_arg; [now apply stringy_textual|now left|constructor]. Qed.
  Lemma member_test G x : own_at "value" t_value true G -> has G (cmeth (cown "value") "isMember" [EText x]) CBool Temporary.
  Proof.
    intros Hv. apply (has_method so G _ t_value Constant (s_ "isMember") (reads [ByReference CString] CBool) _ (has_var so G _ _ true Hv)); [reflexivity|reflexivity|].
    apply textual_arg; [apply text_textual|now left|constructor].
  Qed.
  Lemma new_instance_sound c G : In c (g_classes g) -> graph_own G -> own_at "it" t_iterator false G -> sound CVoid true G (new_instance c).
  Proof.
    intros Hc HO Hit. unfold new_instance. eapply sound_auto; [eapply has_make_unique; apply struct_known; now apply class_struct|apply converts_move|].
    set (G1 := _ :: G). assert (HI : has G1 (cown "instance") (CUnique (CNamed (ucamel (c_name c)))) Changeable) by (apply (has_var so G1 _ _ false); apply known_here).
    assert (Hit1 : own_at "it" t_iterator false G1) by (apply known_before; [discriminate|exact Hit]).
    assert (HO1 : graph_own G1) by (unfold G1; owned).
    eapply sound_assign; [eapply has_member; [eapply has_deref_unique; exact HI|now apply class_id]|now apply it_name_has|apply string_copy|].
    eapply sound_assign; [eapply has_entry; [apply target_registry_has; assumption|now apply it_name_has|apply string_copy]|apply has_move; exact HI|apply converts_move|constructor].
  Qed.
  Lemma callocate_sound c G l : In c (g_classes g) -> graph_own G ->
    sound CVoid false ((ref_var c, (CString, false)) :: G) l -> sound CVoid false G (callocate c ++ l).
  Proof.
    intros Hc HO Hl. unfold callocate. cbn [app]. apply sound_let_default. set (G1 := _ :: G) in *.
    assert (HO1 : graph_own G1) by (unfold G1; owned). clear HO.
    assert (HRef : known G1 (ref_var c) CString false) by apply known_here. clearbody G1. assert (HO1' := HO1). destruct HO1' as (Hv & Hr & Ht & He).
    assert (HRef' : has G1 (EVar (ref_var c)) CString Changeable) by (apply (has_var so G1 _ _ false HRef)).
    assert (Hr' : has G1 (cown "ref") CString Changeable) by (apply (has_var so G1 _ _ false Hr)).
    eapply sound_do; [exact I| |].
    { apply (has_method so G1 _ CString Changeable (s_ "reserve") (changes [ByValue CUnsigned]) _ HRef'); [reflexivity|discriminate|].
      cbn [changes mb_params]. eapply applies_arg; [|apply converts_move|constructor].
      eapply (has_add so G1 _ _ Temporary (literal_type (Z.of_nat (length (s_ "/" ++ instances_key c)))) Temporary); [eapply read_has; [exact Hr'|reflexivity]|apply has_number; now apply Hkey|].
      unfold literal_type. destruct (Z.abs _ <? _)%Z; cbn; tauto. }
    eapply sound_append; [exact HRef'|exact Hr'|cbn; tauto|]. eapply sound_append; [exact HRef'|apply has_text|cbn; tauto|].
    apply if_bool; [now apply member_test| |constructor|exact Hl].
    eapply sound_constant_reference; [eapply has_json_entry; [apply (has_var so G1 _ _ true Hv)|apply has_text|cbn; tauto]|].
    set (G2 := _ :: G1). assert (HO2 : graph_own G2) by (unfold G2; owned). assert (HO2' := HO2). destruct HO2' as (Hv2 & Hr2 & Ht2 & He2).
    assert (HRef2 : known G2 (ref_var c) CString false) by (apply known_before; [discriminate|exact HRef]).
    assert (Hobj : value_ready so (cown "obj") G2) by (exists Constant; apply (has_var so G2 _ _ true); apply known_here).
    apply if_bool; [apply not_has; exists Temporary; now apply value_read| | |constructor].
    - rewrite <- (app_nil_r (add_got _ _ _)). unfold add_got. apply add_error_sound; [exact library_unique|exact message_unique| | | |constructor].
      + apply known_before; [discriminate|exact He2].
      + split; [|constructor]. exists Changeable. apply (has_var so _ _ _ false). apply known_before; [discriminate|exact HRef2].
      + apply stringy_textual, type_of_has; [exact type_unique|]. exists Constant. apply (has_var so _ _ _ true). apply known_before; [discriminate|]. apply known_here.
    - eapply sound_for; [eapply value_read; [exact Hobj|reflexivity]|apply converts_move|cbn; tauto| | |constructor].
      { exists Temporary. eapply has_equal; [apply (has_var so _ _ _ false); apply known_here| |cbn; tauto].
        eapply value_read; [exists Constant; apply (has_var so _ _ _ true); apply known_before; [discriminate|apply known_here]|reflexivity]. }
      set (G3 := _ :: G2). assert (HO3 : graph_own G3) by (unfold G3; owned). assert (HO3' := HO3). destruct HO3' as (Hv3 & Hr3 & Ht3 & He3).
      assert (Hit : own_at "it" t_iterator false G3) by apply known_here.
      assert (HN' := new_instance_sound c G3 Hc HO3 Hit).
      destruct (c_id_pattern c) as [p|] eqn:Ep; [|exact HN'].
      apply if_bool; [|clear HN'|exact HN'|constructor].
      + apply not_has. exists Temporary. eapply (library_call so library_unique G3 (s_ "std::regex_match")); [reflexivity|].
        eapply applies_arg; [now apply it_name_has|now left|]. eapply applies_arg; [apply has_constant; now apply (id_regex c Hc p)|now left|constructor].
      + unfold add_got. apply add_error_sound; [exact library_unique|exact message_unique| | | |].
        * apply known_before; [discriminate|exact He3].
        * split; [|constructor]. exists Changeable. apply (has_var so _ _ _ false). apply known_before; [discriminate|]. apply known_before; [discriminate|exact HRef2].
        * apply stringy_textual. exists Temporary. apply it_name_has. apply known_before; [discriminate|exact Hit].
        * apply full_sound; [apply known_before; [discriminate|exact He3]|intros l' Hl'; now apply sound_break|constructor].
  Qed.

  Lemma callocate_all cs : forall G l, incl cs (g_classes g) -> graph_own G ->
    (forall G', graph_own G' -> (forall c, In c cs \/ known G (ref_var c) CString false -> known G' (ref_var c) CString false) -> sound CVoid false G' l) ->
    sound CVoid false G (flat_map callocate cs ++ l).
  Proof.
    induction cs as [|c cs IH]; intros G l Hi HO Hl; cbn [flat_map app]; [apply Hl; [exact HO|intros c [[]|H]; exact H]|].
    rewrite <- app_assoc. apply callocate_sound; [apply Hi; now left|exact HO|].
    set (G1 := _ :: G). assert (HO1 : graph_own G1) by (unfold G1; owned).
    apply IH; [intros d Hd; apply Hi; now right|exact HO1|]. intros G' HO' HK. apply Hl; [exact HO'|].
    intros d [[<-|Hd]|Hd]; apply HK; [right; apply known_here|now left|right].
    unfold G1. destruct (thing_eq_dec (ref_var d) (ref_var c)) as [->|Hn]; [apply known_here|now apply known_before].
  Qed.

  Lemma cfill_sound refs c G l : In c (g_classes g) -> incl refs (g_classes g) -> parser_callable so (c_name c) refs ->
    graph_own G -> known G (ref_var c) CString false -> own_at "instance_ref" CString false G ->
    sound CVoid false G l -> sound CVoid false G (cfill refs c ++ l).
  Proof.
    intros Hc Hrefs HP HO HRef HIr Hl. unfold cfill. cbn [app]. assert (HO' := HO). destruct HO' as (Hv & Hr & Ht & He).
    assert (HIr' : has G (cown "instance_ref") CString Changeable) by (apply (has_var so G _ _ false HIr)).
    eapply sound_do; [exact I| |].
    { apply (has_method so G _ CString Changeable (s_ "clear") (changes []) _ HIr'); [reflexivity|discriminate|constructor]. }
    eapply sound_append; [exact HIr'|apply (has_var so G _ _ false HRef)|cbn; tauto|].
    eapply sound_append; [exact HIr'|apply has_char|cbn; tauto|].
    apply if_bool; [now apply member_test| |constructor|].
    - eapply sound_constant_reference; [eapply has_json_entry; [apply (has_var so G _ _ true Hv)|apply has_text|cbn; tauto]|].
      set (G2 := _ :: G). assert (HO2 : graph_own G2) by (unfold G2; owned).
      assert (HRef2 : known G2 (ref_var c) CString false) by (apply known_before; [discriminate|exact HRef]).
      assert (HIr2 : own_at "instance_ref" CString false G2) by (apply known_before; [discriminate|exact HIr]).
      assert (Hobj : value_ready so (cown "obj") G2) by (exists Constant; apply (has_var so G2 _ _ true); apply known_here).
      eapply sound_for; [eapply value_read; [exact Hobj|reflexivity]|apply converts_move|cbn; tauto| | |constructor].
      { exists Temporary. eapply has_equal; [apply (has_var so _ _ _ false); apply known_here| |cbn; tauto].
        eapply value_read; [exists Constant; apply (has_var so _ _ _ true); apply known_before; [discriminate|apply known_here]|reflexivity]. }
      set (G3 := _ :: G2). assert (HO3 : graph_own G3) by (unfold G3; owned). assert (HO3' := HO3). destruct HO3' as (Hv3 & Hr3 & Ht3 & He3).
      assert (Hit : own_at "it" t_iterator false G3) by apply known_here.
      assert (HRef3 : known G3 (ref_var c) CString false) by (apply known_before; [discriminate|exact HRef2]).
      assert (HIr3 : own_at "instance_ref" CString false G3) by (apply known_before; [discriminate|exact HIr2]).
      assert (HI3 : has G3 (cown "instance_ref") CString Changeable) by (apply (has_var so G3 _ _ false HIr3)).
      assert (HS : has G3 (EAdd (cmeth (EVar (ref_var c)) "size" []) (ENumber 1)) CUnsigned Temporary).
      { eapply (has_add so G3 _ _ Temporary CInt Temporary); [eapply (read_has so G3 _ CString Changeable); [apply (has_var so G3 _ _ false HRef3)|reflexivity]| |cbn; tauto].
        change CInt with (literal_type 1). apply has_number. unfold literal_fits. cbn. lia. }
      eapply sound_do; [exact I| |].
      { apply (has_method so G3 _ CString Changeable (s_ "reserve") (changes [ByValue CUnsigned]) _ HI3); [reflexivity|discriminate|].
        cbn [changes mb_params]. eapply applies_arg; [|apply converts_move|constructor].
        eapply (has_add so G3 _ _ Temporary CUnsigned Temporary); [exact HS| |cbn; tauto]. eapply (read_has so G3 _ CString Temporary); [now apply it_name_has|reflexivity]. }
      eapply sound_do; [exact I| |].
      { apply (has_method so G3 _ CString Changeable (s_ "resize") (changes [ByValue CUnsigned]) _ HI3); [reflexivity|discriminate|].
        cbn [changes mb_params]. eapply applies_arg; [exact HS|apply converts_move|constructor]. }
      eapply sound_do; [exact I| |].
      { apply (has_method so G3 _ CString Changeable (s_ "append") (Member false [ByReference CString] CString Changeable) _ HI3); [reflexivity|discriminate|].
        apply one_string. exists Temporary. now apply it_name_has. }
      eapply sound_let; [|apply converts_move|].
      { eapply (read_has so G3 _ (CUnique (CNamed (ucamel (c_name c)))) Changeable); [|reflexivity].
        eapply (has_method so G3 _ (t_instances c) Changeable (s_ "at") (Member true [ByReference CString] (CUnique (CNamed (ucamel (c_name c)))) Changeable));
          [now apply target_registry_has|reflexivity|discriminate|]. apply one_string. exists Temporary. now apply it_name_has. }
      set (G4 := _ :: G3). assert (HO4 : graph_own G4) by (unfold G4; owned). assert (HO4' := HO4). destruct HO4' as (Hv4 & Hr4 & Ht4 & He4).
      assert (HI4 : has G4 (cown "instance_ref") CString Changeable) by (apply (has_var so G4 _ _ false); apply known_before; [discriminate|exact HIr3]).
      assert (Hin : has G4 (cown "instance") (CPointer false (CNamed (ucamel (c_name c)))) Changeable) by (apply (has_var so G4 _ _ false); apply known_here).
      eapply sound_do; [exact I| |apply full_sound; [exact He4|intros l' Hl'; now apply sound_break|constructor]].
      eapply HP; [apply map_length| |exists Changeable; exact Hin].
      change (map snd (parser_params (c_name c) refs)) with (ByReference t_value :: map snd (map (fun c => (For "registry" (c_name c), ByReference (t_instances c))) refs ++
        [(Own "ref", ByValue CString); (Own "target", ByValue (CPointer false (CNamed (ucamel (c_name c))))); (Own "errors", ByValue (CPointer false t_parse_errors))])).
      rewrite map_app. cbn [map snd].
      eapply applies_arg; [eapply has_deref_iterator; apply (has_var so G4 _ _ false); apply known_before; [discriminate|exact Hit]|now left|].
      apply applies_app; [apply applies_registries; intros d Hd; exists Changeable; apply target_registry_has; [exact HO4|now apply Hrefs]|].
      eapply applies_arg; [exact HI4|apply string_copy|]. eapply applies_arg; [exact Hin|apply converts_copy; exact I|].
      eapply applies_arg; [apply (has_var so G4 _ _ false He4)|apply converts_copy; exact I|constructor].
    - apply full_sound; [exact He|intros l' Hl'; now apply sound_return_none|exact Hl].
  Qed.
  Lemma cfill_all cks : forall G l,
    (forall c k, In (c, k) cks -> In c (g_classes g) /\ incl (references_of g k) (g_classes g) /\ parser_callable so (c_name c) (references_of g k) /\ known G (ref_var c) CString false) ->
    graph_own G -> own_at "instance_ref" CString false G -> sound CVoid false G l ->
    sound CVoid false G (flat_map (fun ck => cfill (references_of g (snd ck)) (fst ck)) cks ++ l).
  Proof.
    induction cks as [|[c k] cks IH]; intros G l H HO HI Hl; cbn [flat_map app fst snd]; [exact Hl|]. rewrite <- app_assoc.
    destruct (H c k ltac:(now left)) as (H1 & H2 & H3 & H4). apply cfill_sound; try assumption. apply IH; try assumption. intros d j Hd. apply H. now right.
  Qed.

  Lemma throw_sound G text l : sound CVoid false G l -> sound CVoid false G (KThrow (EConstruct t_invalid_argument [EText text]) :: l).
  Proof.
    intros Hl. eapply sound_throw; [|apply converts_move|exact Hl]. eapply has_construct; [|]. 2:{ apply textual_arg; [apply text_textual|now left|constructor]. } unfold constructors. tauto.
  Qed.

  Lemma parse_graph_sound : soundly_typed so (cparse_graph cpp g).
  Proof.
    unfold soundly_typed. cbn [cparse_graph cf_params cf_result cf_body app]. set (G := param_env _).
    assert (HO : graph_own G).
    { repeat split; unfold G, param_env, parser_params; cbn; repeat (first [apply known_here | apply known_before; [discriminate|]]). }
    assert (HO' := HO). destruct HO' as (Hv & Hr & Ht & He).
    assert (HE : forall H, errors_at H -> has H (ENot (at_errors "empty" [])) CBool Temporary).
    { intros H HH. apply not_has. exists Temporary. now apply no_errors_has. }
    apply if_bool; [eapply has_equal_null; apply (has_var so G _ _ false He)|apply throw_sound; constructor|constructor|].
    apply if_bool; [now apply HE|apply throw_sound; constructor|constructor|].
    apply test_object_sound; try assumption.
    apply callocate_all; [apply incl_refl|exact HO|]. intros G1 HO1 HK. 
    assert (Hprops : forall G2, graph_own G2 -> sound CVoid false G2 (cparse_properties cpp g target_registry (g_props g) 0)).
    { intros G2 HO2. assert (HO2' := HO2). destruct HO2' as (Hv2 & Hr2 & Ht2 & He2). rewrite <- (app_nil_r (cparse_properties _ _ _ _ _)).
      apply (cparse_properties_sound cpp g so library_unique message_unique type_unique CVoid target_registry (ucamel (g_name g))); try assumption; [reflexivity| |constructor].
      intros p Hp. split; [apply (member_is_ready _ (g_props g)); [unfold composites; rewrite !in_app_iff; right; right; now left|exact Hp|now apply graph_member]|].
      destruct (composite_value_type g (g_ref g) (g_props g) p ltac:(constructor) Hp) as (ref & HV).
      assert (Hreg : forall c, In c (g_classes g) -> registry_ready so target_registry (later 0) G2 c).
      { intros c Hc G' E. exists Changeable. apply target_registry_has; [|exact Hc].
        repeat split; (apply (known_always (later 0) G2); [apply later_own; reflexivity|assumption|exact E]). }
      assert (HT : ty_resolved g (p_type p)) by (apply (composite_resolved g HR (g_ref g) (g_props g)); [constructor|exact Hp]).
      apply (supported_value' _ _ ref HV); [exact HT| |].
      - intros n c _ Hcl. apply Hreg. now apply find_some in Hcl as [Hcl _].
      - intros n c Hn Hcl. apply Hreg. unfold embed_references in Hcl.
        assert (Hf : In n (map e_name (g_embeds g))).
        { assert (Hf : find_embed g n <> None).
          { clear - HT Hn. induction (p_type p); cbn [embeds_in ty_resolved] in *; try (destruct Hn; fail); auto. destruct Hn as [<-|[]]. exact HT. }
          destruct (find_embed g n) as [e|] eqn:E; [|congruence]. apply find_some in E as [He' En]. apply str_eqb_eq in En as <-. now apply in_map. }
        apply in_map_iff in Hf as (e & <- & He'). apply In_nth_error in He' as (j & Hj).
        rewrite (position_nth (e_name e) _ HNe j) in Hcl by now rewrite nth_error_map, Hj.
        destruct (embed_at g j e Hj) as [Hps Hroot]. destruct (references_of_spec g HR HN _ _ Hps Hroot) as (HI & _). now apply HI. }
    destruct (g_classes g) as [|c0 cs0] eqn:Eg; [cbn [app combine List.seq length flat_map]; now apply Hprops|]. rewrite <- Eg in *. clear Eg c0 cs0. cbn [app].
    assert (HO1' := HO1). destruct HO1' as (Hv1 & Hr1 & Ht1 & He1).
    apply if_bool; [now apply HE|apply sound_return_none; [reflexivity|constructor]|constructor|]. apply sound_let_default.
    set (G2 := _ :: G1). assert (HO2 : graph_own G2) by (unfold G2; owned).
    apply cfill_all; [|exact HO2|apply known_here|now apply Hprops].
    intros c k Hck. apply combine_seq_nth in Hck as (j & -> & Hj). cbn [Nat.add]. assert (Hc := nth_error_In _ _ Hj). split; [exact Hc|].
    split; [|split; [now apply parser_called, class_parser|]].
    - destruct (class_at g j c Hj) as [Hps Hroot]. destruct (references_of_spec g HR HN _ _ Hps Hroot) as (HI & _). exact HI.
    - apply known_before; [discriminate|]. apply HK. now left.
  Qed.

  (** * The functions which serialize *)
  Lemma returned G : own_at "result" t_value false G -> sound t_value false G [KReturn (Some (cown "result"))].
  Proof. intros H. eapply sound_return; [apply (has_var so G _ _ false H)|apply converts_copy; vm_compute; tauto|constructor]. Qed.
  Lemma empty_returned G : sound t_value false G return_empty.
  Proof. eapply sound_return; [apply has_constant; reflexivity|apply converts_json; cbn; tauto|constructor]. Qed.
  Lemma serializer_sound name r ps : composite g r ps -> (forall p, In p ps -> member_read cpp so (ucamel name) p) -> soundly_typed so (cserializer cpp name ps).
  Proof.
    intros Hc Hf. unfold soundly_typed. cbn [cserializer cf_params cf_result cf_body]. set (G := param_env _).
    destruct ps as [|p0 ps0]; [apply empty_returned|]. remember (p0 :: ps0) as ps eqn:Eps. clear Eps p0 ps0. apply sound_let_default.
    apply (cserialize_properties_sound cpp so t_value (ucamel name)).
    - apply known_before; [discriminate|]. apply known_here.
    - apply known_here.
    - intros p Hp. split; [now apply Hf|]. destruct (composite_value_type g _ _ _ Hc Hp) as (ref & HV).
      apply (supported_to_value' _ ref HV). now apply (composite_resolved g HR r ps).
    - intros G' E. apply returned. apply (known_always (later 0) ((Own "result", (t_value, false)) :: G)); [apply later_own; reflexivity|apply known_here|exact E].
  Qed.
  Lemma registry_sound c G l : In c (g_classes g) -> own_at "structure" (CNamed (ucamel (g_name g))) true G -> own_at "result" t_value false G ->
    sound t_value false G l -> sound t_value false G (cserialize_registry c ++ l).
  Proof.
    intros Hc Hs Hr Hl. unfold cserialize_registry. cbn [app].
    assert (HReg : forall H, own_at "structure" (CNamed (ucamel (g_name g))) true H -> has H (registry_member (cown "structure") c) (t_instances c) Constant).
    { intros H HH. eapply has_member; [apply (has_var so H _ _ true HH)|now apply registry_known]. }
    assert (Hser : serializer_callable so (c_name c)).
    { apply serializer_called. right. apply in_or_app. left. now apply in_map. }
    apply if_bool; [| |constructor|exact Hl].
    { apply not_has. exists Temporary. eapply (read_has so G _ (t_instances c) Constant); [now apply HReg|reflexivity]. }
    apply sound_let_default. set (G1 := _ :: G).
    assert (Hs1 : own_at "structure" (CNamed (ucamel (g_name g))) true G1) by (apply known_before; [discriminate|exact Hs]).
    assert (Hr1 : own_at "result" t_value false G1) by (apply known_before; [discriminate|exact Hr]).
    assert (Hvs1 : known G1 (For "value" (c_name c)) t_value false) by apply known_here. clearbody G1.
    eapply sound_each_entry; [now apply HReg| |].
    2:{ eapply sound_assign; [eapply has_json_entry; [apply (has_var so G1 _ _ false Hr1)|apply has_text|cbn; tauto]|apply (has_var so G1 _ _ false Hvs1)|apply converts_copy; vm_compute; tauto|constructor]. }
    set (G2 := _ :: G1).
    assert (HKv : has G2 (cown "kv") (CPair (CUnique (CNamed (ucamel (c_name c))))) Constant) by (apply (has_var so G2 _ _ true); apply known_here).
    eapply sound_constant_reference; [eapply has_first; exact HKv|].
    eapply sound_let.
    { eapply (read_has so _ _ (CUnique (CNamed (ucamel (c_name c)))) Constant); [eapply has_second; apply (has_var so _ _ _ true); apply known_before; [discriminate|apply known_here]|reflexivity]. }
    { apply converts_constant. }
    set (G3 := _ :: _ :: G2).
    assert (Hid : own_at "id" CString true G3) by (apply known_before; [discriminate|]; apply known_here).
    assert (Hin : own_at "instance" (CPointer true (CNamed (ucamel (c_name c)))) false G3) by apply known_here.
    assert (Hvs3 : known G3 (For "value" (c_name c)) t_value false) by (repeat (apply known_before; [discriminate|]); exact Hvs1). clearbody G3. clear G2 HKv.
    assert (HInst : forall H, own_at "instance" (CPointer true (CNamed (ucamel (c_name c)))) false H ->
      has H (EDeref (cown "instance")) (CNamed (ucamel (c_name c))) Constant).
    { intros H HH. apply (has_deref so H _ true _ Changeable). apply (has_var so H _ _ false HH). }
    assert (HId : forall H, own_at "instance" (CPointer true (CNamed (ucamel (c_name c)))) false H ->
      has H (EMember (EDeref (cown "instance")) (s_ "id")) CString Constant).
    { intros H HH. eapply has_member; [now apply HInst|now apply class_id]. }
    apply if_bool.
    - eapply has_equal; [apply (has_var so G3 _ _ true Hid)|now apply HId|cbn; tauto].
    - eapply sound_auto; [apply has_text|apply converts_move|]. eapply sound_auto; [apply has_text|apply converts_move|]. apply sound_let_default. set (G4 := _ :: _ :: _ :: G3).
      assert (Hid4 : own_at "id" CString true G4) by (repeat (apply known_before; [discriminate|]); exact Hid).
      assert (Hin4 : own_at "instance" (CPointer true (CNamed (ucamel (c_name c)))) false G4) by (repeat (apply known_before; [discriminate|]); exact Hin).
      assert (Hex : own_at "expected" CText true G4) by (repeat (apply known_before; [discriminate|]); apply known_here).
      assert (Hbg : own_at "but_got" CText true G4) by (repeat (apply known_before; [discriminate|]); apply known_here).
      assert (Hmsg : has G4 (cown "msg") CString Changeable) by (apply (has_var so G4 _ _ false); apply known_here). clearbody G4.
      assert (HL : forall x, own_at x CText true G4 -> has G4 (ccall "strlen" [cown x]) CUnsigned Temporary).
      { intros x Hx. eapply (library_call so library_unique G4 (s_ "strlen")); [reflexivity|]. eapply applies_arg; [apply (has_var so G4 _ _ true Hx)|apply converts_copy; cbn; tauto|constructor]. }
      assert (HA : forall a b, has G4 a CUnsigned Temporary -> has G4 b CUnsigned Temporary -> has G4 (EAdd a b) CUnsigned Temporary).
      { intros a b Ha Hb. eapply has_add; [exact Ha|exact Hb|cbn; tauto]. }
      eapply sound_do; [exact I| |].
      { apply (has_method so G4 _ CString Changeable (s_ "reserve") (changes [ByValue CUnsigned]) _ Hmsg); [reflexivity|discriminate|].
        cbn [changes mb_params fold_left]. eapply applies_arg; [|apply converts_move|constructor].
        apply HA; [apply HA; [apply HA|]|]; [now apply HL| |now apply HL|].
        - eapply (read_has so G4 _ CString Constant); [apply (has_var so G4 _ _ true Hid4)|reflexivity].
        - eapply (read_has so G4 _ CString Constant); [now apply HId|reflexivity]. }
      eapply sound_append; [exact Hmsg|apply (has_var so G4 _ _ true Hex)|cbn; tauto|].
      eapply sound_append; [exact Hmsg|apply (has_var so G4 _ _ true Hid4)|cbn; tauto|].
      eapply sound_append; [exact Hmsg|apply (has_var so G4 _ _ true Hbg)|cbn; tauto|].
      eapply sound_append; [exact Hmsg|now apply HId|cbn; tauto|].
      eapply sound_throw; [|apply converts_move|constructor]. eapply (has_construct so G4 _ [ByReference CString]); [unfold constructors; tauto|].
      eapply applies_arg; [exact Hmsg|now left|constructor].
    - constructor.
    - eapply sound_assign; [eapply has_json_entry; [apply (has_var so G3 _ _ false Hvs3)|now apply HId|cbn; tauto]|apply (Hser G3 _ Constant); now apply HInst|apply converts_move|constructor].
  Qed.

  Lemma serialize_graph_sound : soundly_typed so (cserialize_graph cpp g).
  Proof.
    unfold soundly_typed. cbn [cserialize_graph cf_params cf_result cf_body]. set (G := param_env _).
    assert (HB : sound t_value false G (let_result :: cserialize_properties cpp (g_props g) 0 ++ flat_map cserialize_registry (g_classes g) ++ [KReturn (Some (cown "result"))])).
    { apply sound_let_default. set (G1 := _ :: G).
      assert (Hs : own_at "structure" (CNamed (ucamel (g_name g))) true G1) by (apply known_before; [discriminate|]; apply known_here).
      assert (Hr : own_at "result" t_value false G1) by apply known_here.
      apply (cserialize_properties_sound cpp so t_value (ucamel (g_name g))); [exact Hs|exact Hr| |].
      - intros p Hp. split; [now apply graph_member|].
        destruct (composite_value_type g (g_ref g) (g_props g) p ltac:(constructor) Hp) as (ref & HV).
        apply (supported_to_value' _ ref HV). apply (composite_resolved g HR (g_ref g) (g_props g)); [constructor|exact Hp].
      - intros G' E. assert (Hs' : own_at "structure" (CNamed (ucamel (g_name g))) true G') by (apply (known_always (later 0) G1); [apply later_own; reflexivity|exact Hs|exact E]).
        assert (Hr' : own_at "result" t_value false G') by (apply (known_always (later 0) G1); [apply later_own; reflexivity|exact Hr|exact E]).
        assert (HF : forall cs, incl cs (g_classes g) -> sound t_value false G' (flat_map cserialize_registry cs ++ [KReturn (Some (cown "result"))])).
        { induction cs as [|c cs IH]; intros Hi; [now apply returned|]. cbn [flat_map]. rewrite <- app_assoc.
          apply registry_sound; [apply Hi; now left|exact Hs'|exact Hr'|]. apply IH. intros d Hd. apply Hi. now right. }
        apply HF, incl_refl. }
    destruct (g_props g), (g_classes g); [apply empty_returned|exact HB..].
  Qed.

  (** * The source *)
  Theorem source_soundly_typed f : In f (cpp_functions cpp g) -> soundly_typed so f.
  Proof.
    assert (HC : forall name refs ps, In (name, refs, ps) (cpp_composites g) ->
      exists k r, nth_error (composites g) k = Some ps /\ k < root g /\ composite g r ps /\ refs = references_of g k /\ forall p, In p ps -> member_read cpp so (ucamel name) p).
    { intros name refs ps H. unfold cpp_composites in H. apply in_app_or in H as [H|H]; apply in_map_iff in H as ([x k] & [= <- <- <-] & Hx);
        apply combine_seq_nth in Hx as (j & -> & Hj); cbn [Nat.add fst snd]; assert (Hx := nth_error_In _ _ Hj).
      - destruct (class_at g j x Hj) as [Hps Hroot]. exists j. eexists. split; [exact Hps|]. split; [exact Hroot|]. split; [now constructor|]. split; [reflexivity|].
        intros p Hp. now apply class_member.
      - destruct (embed_at g j x Hj) as [Hps Hroot]. eexists. eexists. split; [exact Hps|]. split; [exact Hroot|]. split; [now constructor|]. split; [reflexivity|].
        intros p Hp. now apply embed_member. }
    unfold cpp_functions. rewrite !in_app_iff. intros [[<-|[]]|[H|[H|[<-|[]]]]].
    - apply parse_graph_sound.
    - apply in_map_iff in H as ([[n r] ps] & <- & Hx). destruct (HC _ _ _ Hx) as (k & r' & H1 & H2 & H3 & -> & H4). cbn [fst snd]. now apply (composite_sound n k r' ps).
    - apply in_map_iff in H as ([[n r] ps] & <- & Hx). destruct (HC _ _ _ Hx) as (k & r' & H1 & H2 & H3 & -> & H4). cbn [fst snd]. now apply (serializer_sound n r' ps).
    - apply serialize_graph_sound.
  Qed.
End Source.
