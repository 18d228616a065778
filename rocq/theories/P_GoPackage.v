(** Proofs about the types in the generated Go functions, continued: the functions and the
    package. *)
From Coq Require Import String List Arith NArith ZArith Bool Lia.
From Verif Require Import Base M_Naming M_Schema M_Dec M_TypeGraph M_Walk M_GoImports M_Text M_GoGen M_AutoID S_Scope M_Scope M_GoScope
  S_TypeGraph S_Conform S_Walk S_GoImports S_LangValid P_Common P_AutoID P_TypeGraph P_Walk T_Walk P_GoImports P_References P_Naming P_LangValid P_Scope P_PyScope P_BlockScope P_GoScope P_GoFunctions
  S_GoTyping M_GoTyping P_GoTyping.
Import ListNotations.
Open Scope list_scope.
Local Open Scope nat_scope.

Lemma thing_eq_dec (x y : thing) : {x = y} + {x <> y}.
Proof. repeat decide equality. Qed.
(** A variable which is always declared with the same type *)
Lemma declared_all G x t : In (x, t) G -> (forall u, In (x, u) G -> u = t) -> declared G x t.
Proof.
  induction G as [|[y u] G IH]; intros Hin Hall; [destruct Hin|]. destruct (thing_eq_dec x y) as [<-|Hn].
  - rewrite (Hall u) by now left. apply declared_here.
  - apply declared_before; [exact Hn|]. apply IH; [destruct Hin as [E|Hin]; [congruence|exact Hin]|]. intros v Hv. apply Hall. now right.
Qed.
Lemma position_nth n l : NoDup l -> forall j, nth_error l j = Some n -> position n l = j.
Proof.
  intros Hnd. induction Hnd as [|a l Ha Hnd IH]; intros [|j] H; cbn [nth_error position] in *; try discriminate.
  - injection H as ->. now rewrite str_eqb_refl.
  - destruct (str_eqb n a) eqn:E; [|f_equal; now apply IH]. apply str_eqb_eq in E as ->. apply nth_error_In in H. contradiction.
Qed.

Lemma nth_combine_seq {A} (l : list A) : forall k j x, nth_error l j = Some x -> In (x, k + j) (combine l (List.seq k (length l))).
Proof.
  induction l as [|y l IH]; intros k [|j] x H; cbn [nth_error length List.seq combine] in *; try discriminate.
  - injection H as ->. rewrite Nat.add_0_r. now left.
  - right. replace (k + S j) with (S k + j) by lia. now apply IH.
Qed.

Section Package.
  Variable g : graph.
  Hypothesis HR : resolved g.
  Hypothesis HN : NoDup (map c_name (g_classes g)).
  Hypothesis HNe : NoDup (map e_name (g_embeds g)).
  Variable vet : bool.
  Notation pk := (go_package g vet).
  Hypothesis Hstructs : NoDup (keys (go_structs g)).
  Hypothesis Hfunctions : NoDup (keys (pk_functions pk)).
  Hypothesis Hlibrary : forall x, In x (keys (pk_functions pk)) -> ~ In x (keys library_functions).
  Hypothesis Hcfields : forall c, In c (g_classes g) -> NoDup (s_ "ID" :: map ucamel (map p_name (c_props c))).
  Hypothesis Hefields : forall e, In e (g_embeds g) -> NoDup (map ucamel (map p_name (e_props e))).
  Hypothesis Hgfields : NoDup (map ucamel (map c_plural (g_classes g)) ++ map ucamel (map p_name (g_props g))).
  Hypothesis Hfit : forall t ref, value_type g t ref -> constants_fit t.
  (** For the formats only *)
  Hypothesis Hplain : vet = true -> forall t ref, value_type g t ref -> texts_plain t.
  Hypothesis Hidplain : vet = true -> forall c p, In c (g_classes g) -> c_id_pattern c = Some p -> plain p.
  Hypothesis Hclasses : vet = true -> forall c, In c (g_classes g) -> plain (ucamel (c_name c)).

  Notation typed := (typed pk).
  Notation checks := (checks pk).

  (** * What the package declares *)
  Lemma function_known x s : In (x, s) (pk_functions pk) -> function_type pk x = Some s.
  Proof.
    intros H. unfold function_type. assert (Hk : In x (keys (pk_functions pk))) by (now apply (in_map fst) in H).
    destruct (lookup x library_functions) eqn:E.
    - exfalso. apply (Hlibrary _ Hk). apply lookup_In in E. now apply (in_map fst) in E.
    - now apply In_lookup.
  Qed.
  Lemma parser_known f : In f (parser_functions g) -> function_type pk (gf_name f) = Some (signature_of f).
  Proof.
    intros H. apply function_known. apply in_or_app. right. apply (in_map (fun f => (gf_name f, signature_of f))). apply in_or_app. now left.
  Qed.
  Lemma serializer_known f : In f (serializer_functions g) -> function_type pk (gf_name f) = Some (signature_of f).
  Proof.
    intros H. apply function_known. apply in_or_app. right. apply (in_map (fun f => (gf_name f, signature_of f))). apply in_or_app. now right.
  Qed.
  Lemma class_function c k : nth_error (g_classes g) k = Some c ->
    function_type pk (go_from (c_name c)) =
      Some (Sig (GAny :: GString :: map t_registry (references_of g k) ++ [GString; GPointer (GNamed (ucamel (c_name c))); t_errors]) None []).
  Proof.
    intros H. assert (HI : In (c, k) (numbered_classes g)) by (now apply (nth_combine_seq _ 0)).
    change (go_from (c_name c)) with (gf_name (parse_composite_code g (c_name c) true (references_of g k) (c_props c))).
    rewrite (parser_known (parse_composite_code g (c_name c) true (references_of g k) (c_props c))).
    - unfold signature_of. cbn [parse_composite_code gf_params gf_results]. rewrite !map_app, map_map. reflexivity.
    - unfold parser_functions. apply in_or_app. left. apply in_map_iff. now exists (c, k).
  Qed.
  Lemma embed_function n : find_embed g n <> None ->
    function_type pk (go_from n) =
      Some (Sig (GAny :: map t_registry (embed_references g n) ++ [GString; GPointer (GNamed (ucamel n)); t_errors]) None []).
  Proof.
    intros H. destruct (find_embed g n) as [e|] eqn:E; [|congruence]. apply find_some in E as [He En]. apply str_eqb_eq in En as <-.
    apply In_nth_error in He as (j & Hj).
    assert (HI : In (e, length (g_classes g) + j) (numbered_embeds g)) by (now apply nth_combine_seq).
    change (go_from (e_name e)) with (gf_name (parse_composite_code g (e_name e) false (references_of g (length (g_classes g) + j)) (e_props e))).
    rewrite (parser_known (parse_composite_code g (e_name e) false (references_of g (length (g_classes g) + j)) (e_props e))).
    - unfold signature_of, embed_references. rewrite (position_nth (e_name e) _ HNe j) by now rewrite nth_error_map, Hj.
      cbn [parse_composite_code gf_params gf_results app]. cbn [map]. rewrite !map_app, map_map. reflexivity.
    - unfold parser_functions. apply in_or_app. right. apply in_or_app. left. apply in_map_iff. now exists (e, length (g_classes g) + j).
  Qed.
  Lemma class_serializer c : In c (g_classes g) -> function_type pk (go_to (c_name c)) = Some (Sig [GPointer (GNamed (ucamel (c_name c)))] None [t_object]).
  Proof.
    intros H. apply (serializer_known (serializer_code (c_name c) (c_props c))). unfold serializer_functions. apply in_or_app. left.
    now apply (in_map (fun c => serializer_code (c_name c) (c_props c))).
  Qed.
  Lemma embed_serializer n : find_embed g n <> None -> function_type pk (go_to n) = Some (Sig [GPointer (GNamed (ucamel n))] None [t_object]).
  Proof.
    intros H. destruct (find_embed g n) as [e|] eqn:E; [|congruence]. apply find_some in E as [He En]. apply str_eqb_eq in En as <-.
    apply (serializer_known (serializer_code (e_name e) (e_props e))). unfold serializer_functions. apply in_or_app. right. apply in_or_app. left.
    now apply (in_map (fun e => serializer_code (e_name e) (e_props e))).
  Qed.
  Lemma duration_known f s : graph_needs g (KPrim PDuration) = true ->
    In (f, s) [(s_ "durationFromString", Sig [GString] None [t_duration; GError]); (s_ "durationToString", Sig [t_duration] None [GString])] ->
    function_type pk f = Some s.
  Proof. intros E H. apply function_known. apply in_or_app. left. unfold go_duration_functions. now rewrite E. Qed.
  Lemma pattern_known p : pattern_of g p -> exists x, pattern_variable (enumerate_patterns g) p = Some x /\ lookup x (pk_variables pk) = Some (GPointer t_regexp).
  Proof.
    intros H. destruct (C30_patterns_unique_complete g) as (decls & Ed & Hnd & _ & _ & Hv). destruct (Hv p H) as (x & Ex & Hx).
    exists x. split; [exact Ex|]. cbn [go_package pk_variables]. unfold go_variables. rewrite Ed. apply In_lookup.
    - unfold keys. rewrite map_map. exact Hnd.
    - apply in_map_iff. now exists (x, p).
  Qed.

  Lemma struct_known S fields : In (S, fields) (go_structs g) -> lookup S (pk_structs pk) = Some fields.
  Proof. intros H. now apply In_lookup. Qed.
  Lemma field_known S fields f t : In (S, fields) (go_structs g) -> NoDup (keys fields) -> In (f, t) fields -> field_type pk S f = Some t.
  Proof. intros H Hn Hf. unfold field_type. rewrite (struct_known _ _ H). now apply In_lookup. Qed.
  Lemma class_struct c : In c (g_classes g) -> In (ucamel (c_name c), (s_ "ID", GString) :: map field_of (c_props c)) (go_structs g).
  Proof. intros H. unfold go_structs. rewrite !in_app_iff. right. left. now apply (in_map (fun c => (ucamel (c_name c), (s_ "ID", GString) :: map field_of (c_props c)))). Qed.
  Lemma fields_keys ps : keys (map field_of ps) = map ucamel (map p_name ps).
  Proof. unfold keys. now rewrite !map_map. Qed.
  Lemma class_id c : In c (g_classes g) -> field_type pk (ucamel (c_name c)) (s_ "ID") = Some GString.
  Proof. intros H. eapply field_known; [now apply class_struct| |now left]. cbn [keys map fst]. fold (keys (map field_of (c_props c))). rewrite fields_keys. now apply Hcfields. Qed.
  Lemma class_field c p : In c (g_classes g) -> In p (c_props c) -> field_ready pk (ucamel (c_name c)) p.
  Proof.
    intros H Hp. eapply field_known; [now apply class_struct| |right; now apply (in_map field_of)].
    cbn [keys map fst]. fold (keys (map field_of (c_props c))). rewrite fields_keys. now apply Hcfields.
  Qed.
  Lemma embed_field e p : In e (g_embeds g) -> In p (e_props e) -> field_ready pk (ucamel (e_name e)) p.
  Proof.
    intros H Hp. apply (field_known _ (map field_of (e_props e))); [|rewrite fields_keys; now apply Hefields|now apply (in_map field_of)].
    unfold go_structs. rewrite !in_app_iff. left. now apply (in_map (fun e => (ucamel (e_name e), map field_of (e_props e)))).
  Qed.
  Definition graph_fields : list (str * gtype) := map (fun c => (ucamel (c_plural c), t_registry c)) (g_classes g) ++ map field_of (g_props g).
  Lemma graph_struct : In (ucamel (g_name g), graph_fields) (go_structs g).
  Proof. unfold go_structs. rewrite !in_app_iff. right. right. now left. Qed.
  Lemma graph_fields_NoDup : NoDup (keys graph_fields).
  Proof. unfold graph_fields, keys. rewrite map_app. fold (keys (map field_of (g_props g))). rewrite fields_keys, map_map. rewrite map_map in Hgfields. exact Hgfields. Qed.
  Lemma graph_field p : In p (g_props g) -> field_ready pk (ucamel (g_name g)) p.
  Proof. intros Hp. eapply field_known; [apply graph_struct|apply graph_fields_NoDup|]. apply in_or_app. right. now apply (in_map field_of). Qed.
  Lemma registry_known c : In c (g_classes g) -> field_type pk (ucamel (g_name g)) (ucamel (c_plural c)) = Some (t_registry c).
  Proof. intros Hc. eapply field_known; [apply graph_struct|apply graph_fields_NoDup|]. apply in_or_app. left. now apply (in_map (fun c => (ucamel (c_plural c), t_registry c))). Qed.

  (** * The types of the properties are supported *)
  Lemma value_step t u ref : value_type g t ref -> (exists mn mx, t = TArray u mn mx) \/ t = TMap u -> exists ref', value_type g u ref'.
  Proof.
    intros [r ps p n Hc Hp Hin _] Hu. exists (r ++ s_ "/" ++ p_name p ++ levels (S n)). apply (value_type_at g u _ r ps p (S n)); [exact Hc|exact Hp| |reflexivity].
    now apply (inside_step _ _ _ Hin).
  Qed.
  Lemma duration_needed ref : value_type g TDuration ref -> graph_needs g (KPrim PDuration) = true.
  Proof. intros H. apply graph_needs_spec; try discriminate; [exact HR|exists TDuration, ref; now split]. Qed.
  Lemma supported_value (reg : cls -> Prop) t : forall ref, value_type g t ref -> ty_resolved g t ->
    (forall n c, In n (classes_in t) -> find_class g n = Some c -> reg c) ->
    (forall n c, In n (embeds_in t) -> In c (embed_references g n) -> reg c) -> supported pk g reg t.
  Proof.
    induction t; intros ref HV HT HC HE; cbn [supported]; (split; [now apply (Hfit _ ref)|]); (split; [intros Hk; exact (Hplain Hk _ ref HV)|]); try exact I.
    - destruct pattern as [p|]; [|exact I]. apply pattern_known. now apply pattern_of_string with ref.
    - destruct pattern as [p|]; [|exact I]. apply pattern_known. now apply pattern_of_path with ref.
    - apply duration_known; [now apply (duration_needed ref)|now left].
    - destruct (value_step _ t _ HV ltac:(left; eauto)) as (ref' & HV'). now apply (IHt ref').
    - destruct (value_step _ t _ HV ltac:(right; eauto)) as (ref' & HV'). now apply (IHt ref').
    - cbn in HT. destruct (find_class g name) as [c|] eqn:E; [|congruence]. split.
      + exists c. split; [reflexivity|]. apply (HC name); [now left|exact E].
      + intros Hk. apply find_some in E as [Hc E]. apply str_eqb_eq in E as <-. now apply Hclasses.
    - cbn in HT. split; [now apply embed_function|]. intros c Hc. apply (HE name); [now left|exact Hc].
  Qed.
  Lemma supported_to_value t : forall ref, value_type g t ref -> ty_resolved g t -> supported_to pk t.
  Proof.
    induction t; intros ref HV HT; cbn [supported_to]; try exact I.
    - apply duration_known; [now apply (duration_needed ref)|right; now left].
    - destruct (value_step _ t _ HV ltac:(left; eauto)) as (ref' & HV'). now apply (IHt ref').
    - destruct (value_step _ t _ HV ltac:(right; eauto)) as (ref' & HV'). now apply (IHt ref').
    - cbn in HT. destruct (find_class g name) as [c|] eqn:E; [|congruence]. apply find_some in E as [Hc E]. apply str_eqb_eq in E as <-. now apply class_id.
    - now apply embed_serializer.
  Qed.

  (** * The functions which parse *)
  Lemma preconditions_checks S cast loop G l :
    own_at "value" GAny G -> own_at "ref" GString G -> own_at "target" (GPointer (GNamed S)) G -> own_at "errors" t_errors G ->
    (forall x, cast = Some x -> x = Own "cast") ->
    checks loop ((Own "ok", GBool) :: match cast with Some x => [(x, t_object)] | None => [] end ++ G) l -> checks loop G (preconditions cast ++ l).
  Proof.
    intros Hv Hr Ht He Hc Hl. unfold preconditions. cbn [app].
    assert (HP : forall x, checks loop G [SDo (call "panic" [lit x])]).
    { intros x. eapply checks_do; [exact I| |constructor]. eapply call_yields; [apply library; reflexivity|reflexivity|]. constructor; [apply assignable_text_any|constructor]. }
    apply checks_if; [eapply typed_equal_nil; [apply typed_var; exact Ht|exact I]|apply HP|constructor|].
    apply checks_if; [eapply typed_equal_nil; [apply typed_var; exact He|exact I]|apply HP|constructor|].
    apply checks_if; [apply typed_not, empty_typed; exact He|apply HP|constructor|].
    eapply checks_define; [apply yields_assert, typed_var; exact Hv|reflexivity|]. cbn [bind_all].
    assert (HB : bind_all [cast; Some (Own "ok")] [t_object; GBool] G = (Own "ok", GBool) :: match cast with Some x => [(x, t_object)] | None => [] end ++ G) by (destruct cast; reflexivity).
    cbn [bind_all] in HB. rewrite HB. set (G1 := _ :: _) in *.
    assert (D : forall r t, r <> "ok"%string -> r <> "cast"%string -> own_at r t G -> own_at r t G1).
    { intros r t H1 H2 H. unfold G1. apply declared_before; [congruence|]. destruct cast as [x|]; [|exact H]. rewrite (Hc x eq_refl). apply declared_before; [congruence|exact H]. }
    apply checks_if; [apply typed_not, typed_var, declared_here| |constructor|exact Hl].
    apply complain_checks; [now apply D|apply assignable_same, typed_var; now apply D| |repeat constructor].
    apply (tells_one _ _ _ 84%N _ GAny); [apply typed_var; now apply D|showing|literal].
  Qed.

  Lemma composite_checks name is_class k r ps :
    nth_error (composites g) k = Some ps -> k < root g -> composite g r ps ->
    (forall p, In p ps -> field_ready pk (ucamel name) p) ->
    (is_class = true -> field_type pk (ucamel name) (s_ "ID") = Some GString) ->
    well_typed pk (parse_composite_code g name is_class (references_of g k) ps).
  Proof.
    intros Hk Hroot Hc Hf Hid. destruct (references_of_spec g HR HN k ps Hk Hroot) as (_ & _ & HC & HE).
    set (refs := references_of g k) in *. unfold well_typed. cbn [parse_composite_code gf_params gf_results gf_body]. rewrite app_nil_r.
    set (params := _ ++ _ ++ _ ++ _). set (G := rev params).
    assert (Hdecl : forall x t, In (x, t) params -> (forall u, In (x, u) params -> u = t) -> declared G x t).
    { intros x t H1 H2. apply declared_all; [now apply -> in_rev|]. intros u Hu. apply H2. now apply in_rev. }
    assert (Hin : forall r t, In (Own r, t) params ->
      In (r, t) ([("value"%string, GAny)] ++ (if is_class then [("id"%string, GString)] else []) ++ [("ref"%string, GString); ("target"%string, GPointer (GNamed (ucamel name))); ("errors"%string, t_errors)])).
    { intros q t H. unfold params in H. rewrite !in_app_iff in *. destruct H as [H|[H|[H|H]]].
      - destruct H as [[= <- <-]|[]]. left. now left.
      - right. left. destruct is_class; [|destruct H]. destruct H as [[= <- <-]|[]]. now left.
      - apply in_map_iff in H as (c & [=] & _).
      - right. right. destruct H as [[= <- <-]|[[= <- <-]|[[= <- <-]|[]]]]; cbn; tauto. }
    assert (Hown : forall r t, In (Own r, t) params -> own_at r t G).
    { intros q t H. apply Hdecl; [exact H|]. intros u Hu. apply Hin in H, Hu. destruct is_class; cbn in H, Hu; intuition congruence. }
    assert (Hv : own_at "value" GAny G) by (apply Hown; now left).
    assert (Hr : own_at "ref" GString G) by (apply Hown; unfold params; rewrite !in_app_iff; do 3 right; now left).
    assert (Ht : own_at "target" (GPointer (GNamed (ucamel name))) G) by (apply Hown; unfold params; rewrite !in_app_iff; do 3 right; right; now left).
    assert (He : own_at "errors" t_errors G) by (apply Hown; unfold params; rewrite !in_app_iff; do 3 right; right; right; now left).
    set (cast := match ps with [] => None | _ => Some (Own "cast") end).
    apply preconditions_checks with (S := ucamel name); try assumption.
    { intros x. unfold cast. destruct ps; congruence. }
    set (G1 := _ :: _).
    assert (U : forall x t, x <> Own "ok" -> x <> Own "cast" -> declared G x t -> declared G1 x t).
    { intros x t H1 H2 H. unfold G1. apply declared_before; [exact H1|]. unfold cast. destruct ps; [exact H|]. apply declared_before; [exact H2|exact H]. }
    assert (Uo : forall r t, r <> "ok"%string -> r <> "cast"%string -> own_at r t G -> own_at r t G1) by (intros q t H1 H2; apply U; congruence).
    apply Uo in Hr, Ht, He; try discriminate.
    assert (Hids : forall l, checks false G1 l -> checks false G1 ((if is_class then [SAssign [XField (ow "target") (s_ "ID")] (ow "id")] else []) ++ l)).
    { intros l Hl. destruct is_class; [|exact Hl]. cbn [app]. specialize (Hid eq_refl). assert (T : typed G1 (ow "target") (GPointer (GNamed (ucamel name)))) by (apply typed_var; exact Ht).
      eapply checks_assign; [eapply typed_field_of_pointer; [exact T|exact Hid]|left; eapply addressable_field_of_pointer; exact T| |exact Hl].
      apply assignable_same, typed_var. apply U; try discriminate. apply Hown. unfold params. rewrite !in_app_iff. right. left. now left. }
    apply Hids. apply parse_properties_checks with (S := ucamel name); try assumption.
    - apply Forall_forall. intros p Hp. split; [|now apply Hf]. destruct (composite_value_type g _ _ _ Hc Hp) as (ref & HV).
      assert (Hreg : forall c, In c refs -> registry_ready pk (fun c => XVar (For "registry" (c_name c))) 0 G1 c).
      { intros c Hcr. intros G' E. apply typed_var. apply (declared_always 0 G1); [apply stable_for| |exact E].
        apply U; try discriminate. apply Hdecl.
        - unfold params. rewrite !in_app_iff. right. right. left. now apply (in_map (fun c => (For "registry" (c_name c), t_registry c))).
        - intros u Hu. unfold params in Hu. rewrite !in_app_iff in Hu. destruct Hu as [[[=]|[]]|[Hu|[Hu|Hu]]].
          + destruct is_class; [|destruct Hu]. destruct Hu as [[=]|[]].
          + apply in_map_iff in Hu as (d & [= E1 <-] & _). unfold t_registry. now rewrite E1.
          + cbn in Hu. destruct Hu as [[=]|[[=]|[[=]|[]]]]. }
      apply (supported_value _ _ ref HV); [now apply (composite_resolved g HR r ps)| |].
      + intros n c Hn Hcl. apply Hreg. now apply (HC p n).
      + intros n c Hn Hcl. apply Hreg. now apply (HE p n Hp Hn).
    - intros Hps. unfold own_at, G1, cast. destruct ps; [congruence|]. apply declared_before; [discriminate|]. apply declared_here.
    - intros G' _. repeat constructor.
  Qed.

  (** ** The parser of the graph *)
  Definition graph_own_at (G : env) : Prop :=
    own_at "value" GAny G /\ own_at "ref" GString G /\ own_at "target" (GPointer (GNamed (ucamel (g_name g)))) G /\ own_at "errors" t_errors G /\
    own_at "cast" t_object G /\ own_at "ok" GBool G.
  Definition registry_at (c : cls) (G : env) : Prop :=
    declared G (For "Ref" (c_name c)) GString /\ declared G (For "Ok" (c_name c)) GBool /\
    declared G (For "Value" (c_name c)) GAny /\ declared G (For "Map" (c_name c)) t_object.
  Definition registry_env (c : cls) : env :=
    [(For "Map" (c_name c), t_object); (For "Value" (c_name c), GAny); (For "Ok" (c_name c), GBool); (For "Ref" (c_name c), GString)].
  Lemma registry_env_own c G r t : own_at r t G -> own_at r t (registry_env c ++ G).
  Proof. intros H. unfold own_at, registry_env. cbn [app]. repeat (apply declared_before; [discriminate|]). exact H. Qed.
  Lemma registry_env_here c G : registry_at c (registry_env c ++ G).
  Proof. unfold registry_at, registry_env. cbn [app]. repeat split; decl. Qed.
  Lemma registry_env_other c d G : registry_at d G -> registry_at d (registry_env c ++ G).
  Proof.
    intros (H1 & H2 & H3 & H4). destruct (list_eq_dec N.eq_dec (c_name d) (c_name c)) as [E|E].
    - unfold registry_at. rewrite E. apply registry_env_here.
    - unfold registry_at, registry_env. cbn [app]. repeat split; repeat (apply declared_before; [congruence|]); assumption.
  Qed.
  Lemma target_registry G c : own_at "target" (GPointer (GNamed (ucamel (g_name g)))) G -> In c (g_classes g) ->
    typed G (registry_field (ow "target") c) (t_registry c) /\ S_GoTyping.settable pk G (registry_field (ow "target") c).
  Proof.
    intros Ht Hc. assert (T : typed G (ow "target") (GPointer (GNamed (ucamel (g_name g))))) by (apply typed_var; exact Ht).
    split; [eapply typed_field_of_pointer; [exact T|now apply registry_known]|left; eapply addressable_field_of_pointer; exact T].
  Qed.

  Lemma allocate_checks c G l : In c (g_classes g) -> graph_own_at G ->
    checks false (registry_env c ++ G) l -> checks false G (allocate_code g c ++ l).
  Proof.
    intros Hc (Hv & Hr & Ht & He & Hca & Hok) Hl. unfold allocate_code. cbn [app].
    eapply checks_define; [apply yields_one; apply typed_concat; [apply typed_var; exact Hr|apply assignable_text]|reflexivity|]. cbn [bind_all].
    apply checks_var, checks_var, checks_var. fold (registry_env c ++ G). change (_ :: _ :: _ :: _ :: G) with (registry_env c ++ G).
    set (G1 := registry_env c ++ G) in *. destruct (registry_env_here c G) as (R1 & R2 & R3 & R4). fold G1 in R1, R2, R3, R4.
    assert (U : forall r t, own_at r t G -> own_at r t G1) by (intros r t; apply registry_env_own). apply U in Hv, Hr, Ht, He, Hca, Hok.
    eapply checks_assign_all; [eapply yields_entry; [apply typed_var; exact Hca|apply assignable_text]| |].
    { constructor; [split; [apply typed_var; exact R3|left; apply addressable_var]|]. constructor; [split; [apply typed_var; exact R2|left; apply addressable_var]|constructor]. }
    apply checks_if; [apply typed_var; exact R2| |constructor|exact Hl].
    eapply checks_assign_all; [apply yields_assert, typed_var; exact R3| |].
    { constructor; [split; [apply typed_var; exact R4|left; apply addressable_var]|]. constructor; [split; [apply typed_var; exact Hok|left; apply addressable_var]|constructor]. }
    destruct (target_registry G1 c Ht Hc) as [T1 T2].
    apply checks_if; [apply typed_not, typed_var; exact Hok| | |constructor].
    { apply complain_checks; [exact He|apply assignable_same, typed_var; exact R1| |constructor]. apply (tells_one _ _ _ 84%N _ GAny); [apply typed_var; exact R3|showing|literal]. }
    eapply checks_assign; [exact T1|exact T2|apply assignable_same, typed_make_map|].
    eapply checks_range_map; [apply typed_var; exact R4| |constructor].
    set (G2 := (Own "id", GString) :: G1). assert (Hid : declared G2 (Own "id") GString) by apply declared_here.
    assert (Ht2 : own_at "target" (GPointer (GNamed (ucamel (g_name g)))) G2) by (apply declared_before; [discriminate|exact Ht]).
    destruct (target_registry G2 c Ht2 Hc) as [T3 _].
    assert (HI : checks true G2 [SAssign [XIndex (registry_field (ow "target") c) (ow "id")] (XNew (ucamel (c_name c)))]).
    { eapply checks_assign; [eapply typed_entry; [exact T3|apply assignable_same, typed_var; exact Hid]|right; eexists _, _, _; split; [reflexivity|exact T3]| |constructor].
      apply assignable_same. eapply typed_new. apply struct_known. now apply class_struct. }
    destruct (c_id_pattern c) as [p|] eqn:Ep; [|exact HI].
    destruct (pattern_known p (pattern_of_id g p c Hc Ep)) as (x & Hx & Hlx).
    apply checks_if; [apply typed_not; eapply matches_typed; [exact Hx|exact Hlx|apply typed_var; exact Hid]| |exact HI|constructor].
    apply complain_checks; [apply declared_before; [discriminate|exact He]|apply assignable_same, typed_var; apply declared_before; [discriminate|exact R1]| |constructor].
    apply (tells_one _ _ _ 115%N _ GString); [apply typed_var; exact Hid|showing|]. intros Hk.
    apply formats_around; [now apply verbs_sound|now apply (Hidplain Hk c)|now apply verbs_sound].
  Qed.

  Lemma fill_checks c k G l : nth_error (g_classes g) k = Some c -> graph_own_at G -> registry_at c G ->
    checks false G l -> checks false G (fill_code g (c, k) ++ l).
  Proof.
    intros Hk (Hv & Hr & Ht & He & Hca & Hok) (R1 & R2 & R3 & R4) Hl. unfold fill_code. cbn [app].
    assert (Hc : In c (g_classes g)) by (now apply nth_error_In in Hk).
    apply checks_if; [apply typed_var; exact R2| |constructor|now apply return_checks].
    eapply checks_range_entries; [apply typed_var; exact R4| |constructor].
    set (G1 := (Own "instance value", GAny) :: (Own "id", GString) :: G).
    assert (Hid : declared G1 (Own "id") GString) by (unfold G1; decl). assert (Hiv : declared G1 (Own "instance value") GAny) by (unfold G1; decl).
    assert (Ht1 : own_at "target" (GPointer (GNamed (ucamel (g_name g)))) G1) by (unfold own_at, G1; decl).
    assert (He1 : own_at "errors" t_errors G1) by (unfold own_at, G1; decl).
    assert (R11 : declared G1 (For "Ref" (c_name c)) GString) by (unfold G1; decl).
    destruct (class_at g k c Hk) as [Hps Hroot]. destruct (references_of_spec g HR HN k (c_props c) Hps Hroot) as (HI & _).
    eapply checks_do; [exact I| |apply break_checks; [exact He1|constructor]].
    eapply call_yields; [exact (class_function c k Hk)|reflexivity|]. cbn [sg_params sg_rest app].
    constructor; [apply assignable_same, typed_var; exact Hiv|]. constructor; [apply assignable_same, typed_var; exact Hid|].
    apply applied_app.
    - revert HI. generalize (references_of g k) as L. induction L as [|d L IH]; intros HI; [constructor|]. cbn [map]. constructor; [|apply IH; intros x Hx; apply HI; now right].
      apply assignable_same. apply target_registry; [exact Ht1|apply HI; now left].
    - constructor; [apply assignable_same, joined_typed; constructor; [apply assignable_same, typed_var; exact R11|constructor; [apply assignable_same, typed_var; exact Hid|constructor]]|].
      constructor; [apply assignable_same; eapply typed_entry; [apply (target_registry G1 c Ht1 Hc)|apply assignable_same, typed_var; exact Hid]|].
      constructor; [apply assignable_same, typed_var; exact He1|constructor].
  Qed.

  Lemma parse_graph_checks : well_typed pk (parse_graph_code g).
  Proof.
    unfold well_typed. cbn [parse_graph_code gf_params gf_results gf_body]. rewrite app_nil_r. cbn [rev app].
    apply preconditions_checks with (S := ucamel (g_name g)); [unfold own_at; decl..|intros x [= <-]; reflexivity|]. cbn [app].
    set (G := _ :: _ :: _). assert (HO : graph_own_at G) by (unfold G, graph_own_at, own_at; repeat split; decl).
    assert (HA : forall l G rest, incl l (g_classes g) -> graph_own_at G ->
      (forall G', graph_own_at G' -> (forall c, registry_at c G \/ In c l -> registry_at c G') -> checks false G' rest) ->
      checks false G (flat_map (allocate_code g) l ++ rest)).
    { induction l as [|c l IH]; intros G0 rest Hl HG Hrest; [apply Hrest; [exact HG|intros c [H|[]]; exact H]|]. cbn [flat_map]. rewrite <- app_assoc.
      apply allocate_checks; [apply Hl; now left|exact HG|]. apply IH.
      - intros x Hx. apply Hl. now right.
      - destruct HG as (H1 & H2 & H3 & H4 & H5 & H6). repeat split; now apply registry_env_own.
      - intros G' HG' HR'. apply Hrest; [exact HG'|]. intros d [Hd|[<-|Hd]]; apply HR'; [left; now apply registry_env_other|left; apply registry_env_here|now right]. }
    apply HA; [apply incl_refl|exact HO|]. clear HO. clearbody G. intros G1 HO1 HR1. destruct HO1 as (Hv & Hr & Ht & He & Hca & Hok).
    assert (HO1 : graph_own_at G1) by (repeat split; assumption).
    assert (HE : forall l rest, checks false G1 rest -> checks false G1 ((match l : list cls with [] => [] | _ => [SIf (XNot (meth (ow "errors") "Empty" [])) [SReturn] []] end) ++ rest)).
    { intros [|x l] rest Hrest; [exact Hrest|]. cbn [app]. apply checks_if; [apply typed_not, empty_typed; exact He|repeat constructor|constructor|exact Hrest]. }
    apply HE.
    assert (HF : forall l rest, (forall c k, In (c, k) l -> nth_error (g_classes g) k = Some c) -> checks false G1 rest -> checks false G1 (flat_map (fill_code g) l ++ rest)).
    { induction l as [|[c k] l IH]; intros rest Hl Hrest; [exact Hrest|]. cbn [flat_map]. rewrite <- app_assoc.
      assert (Hk := Hl c k (or_introl eq_refl)). apply fill_checks; [exact Hk|exact HO1|apply HR1; right; now apply nth_error_In in Hk|].
      apply IH; [intros d j Hd; apply Hl; now right|exact Hrest]. }
    apply HF.
    { intros c k H. apply combine_seq_nth in H as (j & -> & H). exact H. }
    apply parse_properties_checks with (S := ucamel (g_name g)); try assumption; [|intros _; exact Hca|intros G' _; repeat constructor].
    apply Forall_forall. intros p Hp. split; [|now apply graph_field].
    destruct (composite_value_type g (g_ref g) (g_props g) p ltac:(constructor) Hp) as (ref & HV).
    assert (Hreg : forall c, In c (g_classes g) -> registry_ready pk (registry_field (ow "target")) 0 G1 c).
    { intros c Hc G' E. apply target_registry; [exact (own_always 0 G1 _ _ Ht _ E)|exact Hc]. }
    assert (HT : ty_resolved g (p_type p)) by (apply (composite_resolved g HR (g_ref g) (g_props g)); [constructor|exact Hp]).
    apply (supported_value _ _ ref HV); [exact HT| |].
    - intros n c Hn Hcl. apply Hreg. now apply find_some in Hcl.
    - intros n c Hn Hcl. apply Hreg. unfold embed_references in Hcl.
      assert (Hf : In n (map e_name (g_embeds g))).
      { assert (Hf : find_embed g n <> None).
        { clear - HT Hn. induction (p_type p); cbn [embeds_in ty_resolved] in *; try (destruct Hn; fail); auto. destruct Hn as [<-|[]]. exact HT. }
        destruct (find_embed g n) as [e|] eqn:E; [|congruence]. apply find_some in E as [He' En]. apply str_eqb_eq in En as <-. now apply in_map. }
      apply in_map_iff in Hf as (e & <- & He'). apply In_nth_error in He' as (j & Hj).
      rewrite (position_nth (e_name e) _ HNe j) in Hcl by now rewrite nth_error_map, Hj.
      destruct (embed_at g j e Hj) as [Hps Hroot]. destruct (references_of_spec g HR HN _ _ Hps Hroot) as (HI & _). now apply HI.
  Qed.

  (** * The functions which serialize *)
  Lemma start_checks S G l : own_at "instance" (GPointer (GNamed S)) G -> own_at "target" t_object G -> checks false G l -> checks false G (serialize_start ++ l).
  Proof.
    intros Hi Ht Hl. unfold serialize_start. cbn [app].
    apply checks_if; [eapply typed_equal_nil; [apply typed_var; exact Hi|exact I]| |constructor|].
    - eapply checks_do; [exact I| |constructor]. eapply call_yields; [apply library; reflexivity|reflexivity|]. constructor; [apply assignable_text_any|constructor].
    - eapply checks_assign; [apply typed_var; exact Ht|left; apply addressable_var|apply assignable_same, typed_make_map|exact Hl].
  Qed.
  Lemma serializer_checks name r ps : composite g r ps -> (forall p, In p ps -> field_ready pk (ucamel name) p) -> well_typed pk (serializer_code name ps).
  Proof.
    intros Hc Hf. unfold well_typed. cbn [serializer_code gf_params gf_results gf_body rev app]. set (G := _ :: _).
    assert (Hi : own_at "instance" (GPointer (GNamed (ucamel name))) G) by (unfold own_at, G; decl).
    assert (Ht : own_at "target" t_object G) by (unfold own_at, G; decl).
    apply start_checks with (S := ucamel name); try assumption.
    apply serialize_properties_checks with (S := ucamel name); try assumption; [|intros G' _; repeat constructor].
    apply Forall_forall. intros p Hp. split; [|now apply Hf]. destruct (composite_value_type g _ _ _ Hc Hp) as (ref & HV).
    apply (supported_to_value _ ref HV). now apply (composite_resolved g HR r ps).
  Qed.

  Lemma serialize_registry_checks c G l : In c (g_classes g) ->
    own_at "instance" (GPointer (GNamed (ucamel (g_name g)))) G -> own_at "target" t_object G -> own_at "err" GError G ->
    checks false G l -> checks false G (serialize_registry_code c ++ l).
  Proof.
    intros Hc Hi Ht He Hl. unfold serialize_registry_code. cbn [app].
    assert (HF : forall G, own_at "instance" (GPointer (GNamed (ucamel (g_name g)))) G -> typed G (registry_field (ow "instance") c) (t_registry c)).
    { intros G0 H0. eapply typed_field_of_pointer; [apply typed_var; exact H0|now apply registry_known]. }
    apply checks_if; [| |constructor|exact Hl].
    { eapply typed_order; [eapply typed_len_map; now apply HF|now left|]. apply assignable_number. cbn [representable]. lia. }
    eapply checks_define; [apply yields_one, (typed_make_map _ _ GAny)|reflexivity|]. cbn [bind_all].
    set (G1 := (For "target" (c_name c), GMap GAny) :: G).
    eapply checks_range_map; [apply HF; unfold own_at, G1; decl| |].
    - eapply checks_define; [apply yields_one; eapply typed_entry; [apply HF; unfold own_at, G1; decl|apply assignable_same, typed_var, declared_here]|reflexivity|]. cbn [bind_all].
      set (G2 := _ :: _ :: G1).
      assert (D1 : declared G2 (Own "id") GString) by (unfold G2; decl).
      assert (D2 : declared G2 (For "instance" (c_name c)) (GPointer (GNamed (ucamel (c_name c))))) by (unfold G2; decl).
      assert (D3 : declared G2 (For "target" (c_name c)) (GMap GAny)) by (unfold G2, G1; decl).
      assert (D4 : declared G2 (Own "err") GError) by (unfold G2, G1; decl).
      assert (T : typed G2 (XField (XVar (For "instance" (c_name c))) (s_ "ID")) GString) by (eapply typed_field_of_pointer; [apply typed_var; exact D2|now apply class_id]).
      apply checks_if; [eapply typed_equal; [apply typed_var; exact D1|cbn; tauto|now apply assignable_same]| |constructor|].
      + eapply checks_assign; [apply typed_var; exact D4|left; apply addressable_var| |repeat constructor].
        apply assignable_same. apply format_typed; [right; now left|]. apply (tells_two _ _ _ 115%N 115%N _ GString _ GString); [apply typed_var; exact D1|showing|exact T|showing|].
        intros Hk. apply formats_around; [now apply verbs_sound|now apply Hclasses|now apply verbs_sound].
      + eapply checks_assign; [eapply typed_entry; [apply typed_var; exact D3|apply assignable_same, typed_var; exact D1]|right; eexists _, _, _; split; [reflexivity|apply typed_var; exact D3]| |constructor].
        eapply assignable_any. eapply call_typed; [now apply class_serializer|reflexivity|reflexivity|]. constructor; [apply assignable_same, typed_var; exact D2|constructor].
    - assert (D : declared G1 (Own "target") t_object) by (unfold G1; decl).
      eapply checks_assign; [eapply typed_entry; [apply typed_var; exact D|apply assignable_text]|right; eexists _, _, _; split; [reflexivity|apply typed_var; exact D]| |constructor].
      eapply assignable_any. apply typed_var, declared_here.
  Qed.
  Lemma serialize_graph_checks : well_typed pk (serialize_graph_code g).
  Proof.
    unfold well_typed. cbn [serialize_graph_code gf_params gf_results gf_body rev app]. set (G := _ :: _).
    assert (Hi : own_at "instance" (GPointer (GNamed (ucamel (g_name g)))) G) by (unfold own_at, G; decl).
    assert (Ht : own_at "target" t_object G) by (unfold own_at, G; decl).
    assert (He : own_at "err" GError G) by (unfold own_at, G; decl). clearbody G.
    apply start_checks with (S := ucamel (g_name g)); try assumption. apply checks_defer.
    { apply checks_if; [eapply typed_equal_nil; [apply typed_var; exact He|exact I]| |constructor|constructor].
      eapply checks_assign; [apply typed_var; exact Ht|left; apply addressable_var|apply assignable_nil; exact I|constructor]. }
    apply serialize_properties_checks with (S := ucamel (g_name g)); try assumption.
    - apply Forall_forall. intros p Hp. split; [|now apply graph_field]. destruct (composite_value_type g (g_ref g) (g_props g) p ltac:(constructor) Hp) as (ref & HV).
      apply (supported_to_value _ ref HV). apply (composite_resolved g HR (g_ref g) (g_props g)); [constructor|exact Hp].
    - intros G' E. pose proof (own_always 0 G _ _ Hi _ E) as Hi'. pose proof (own_always 0 G _ _ Ht _ E) as Ht'. pose proof (own_always 0 G _ _ He _ E) as He'.
      assert (HA : forall l, incl l (g_classes g) -> checks false G' (flat_map serialize_registry_code l ++ [SReturn])).
      { induction l as [|c l IH]; intros Hl; [repeat constructor|]. cbn [flat_map]. rewrite <- app_assoc. apply serialize_registry_checks; try assumption; [apply Hl; now left|].
        apply IH. intros x Hx. apply Hl. now right. }
      apply HA, incl_refl.
  Qed.

  Theorem package_well_typed f : In f (go_functions g) -> well_typed pk f.
  Proof.
    intros H. unfold go_functions, parser_functions, serializer_functions in H. rewrite !in_app_iff in H.
    destruct H as [[H|[H|[<-|[]]]]|[H|[H|[<-|[]]]]].
    - apply in_map_iff in H as ([c k] & <- & Hc). apply combine_seq_nth in Hc as (j & -> & Hj). cbn [fst snd Nat.add].
      destruct (class_at g j c Hj) as [Hps Hroot]. apply nth_error_In in Hj.
      apply (composite_checks _ true j (c_ref c)); [exact Hps|exact Hroot|now constructor|intros p Hp; now apply class_field|intros _; now apply class_id].
    - apply in_map_iff in H as ([e k] & <- & He). apply combine_seq_nth in He as (j & -> & Hj). cbn [fst snd].
      destruct (embed_at g j e Hj) as [Hps Hroot]. apply nth_error_In in Hj.
      apply (composite_checks _ false _ (e_ref e)); [exact Hps|exact Hroot|now constructor|intros p Hp; now apply embed_field|discriminate].
    - exact parse_graph_checks.
    - apply in_map_iff in H as (c & <- & Hc). apply (serializer_checks _ (c_ref c)); [now constructor|]. intros p Hp. now apply class_field.
    - apply in_map_iff in H as (e & <- & He). apply (serializer_checks _ (e_ref e)); [now constructor|]. intros p Hp. now apply embed_field.
    - exact serialize_graph_checks.
  Qed.
End Package.
