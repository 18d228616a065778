(** C36, C37, C38: the validation for a target language. *)
From Coq Require Import String List Arith NArith ZArith Bool Lia.
From Verif Require Import Base M_Naming M_Schema M_Strftime M_Walk M_Validate M_LangValid S_Conform S_Strftime S_Walk S_LangValid
  P_Common P_Naming P_Walk P_Validate P_ValidateDoc P_LangValid P_GoFormats T_Validate.
Import ListNotations.
Open Scope list_scope.
Local Open Scope nat_scope.

Lemma keywords_ext (k k' : list str) field composite own :
  (forall i, In i k <-> In i k') ->
  (forall g, no_clash_but_graph k field composite own g <-> no_clash_but_graph k' field composite own g) /\
  (forall g e, real k field composite own g e <-> real k' field composite own g e).
Proof.
  intros H.
  assert (U : forall conv names, usable k conv names <-> usable k' conv names).
  { intros conv names. unfold usable. split; intros (ids & A & B & C); exists ids; (split; [exact A|]; split; [exact B|]; intros i Hi; specialize (C i Hi); rewrite ?H in *; firstorder). }
  split.
  - intros g. unfold no_clash_but_graph, fields_usable. rewrite !U.
    split; intros (A & B & C & D & E); (split; [exact A|]; split; [exact B|]; split; [|split; [|exact E]]).
    + intros c Hc. specialize (C c Hc). rewrite U in C. exact C.
    + intros e He. rewrite <- U. auto.
    + intros c Hc. specialize (C c Hc). rewrite U. exact C.
    + intros e He. rewrite U. auto.
  - intros g e. unfold real. destruct (le_kind e); rewrite ?H; reflexivity.
Qed.

Lemma graph_apart_no_clash keywords field (composite : str -> str -> Prop) own g :
  (forall n i j, composite n i -> composite n j -> i = j) ->
  graph_apart composite g -> no_clash_but_graph keywords field composite own g -> no_clash keywords field composite own g.
Proof.
  intros U A ((gi & G1 & G2 & G3) & (ids & I1 & I2 & I3) & F). split; [|exact F].
  inversion G1 as [|? i ? ? H1 H2]; subst. inversion H2; subst. exists (i :: ids).
  split; [now constructor|]. split; [|intros j [<- | Hj]; [apply G3; now left | auto]].
  constructor; [|assumption]. intros Hi.
  assert (E : exists n, In n (map c_name (g_classes g) ++ map e_name (g_embeds g)) /\ composite n i).
  { revert I1 Hi. generalize (map c_name (g_classes g) ++ map e_name (g_embeds g)). clear. intros names H. induction H as [|n j names ids Hj _ IH]; [contradiction|].
    intros [-> | Hi]; [exists n; split; [now left | assumption]|]. destruct (IH Hi) as (m & Hm & Hc). exists m. split; [now right | assumption]. }
  destruct E as (n & Hn & Hc). apply (A n i Hn H1 Hc).
Qed.

Lemma camel_unique n i j : camel_composite n i -> camel_composite n j -> i = j.
Proof. rewrite <- !as_composite_camel. congruence. Qed.
Lemma upper_unique n i j : upper_camel n i -> upper_camel n j -> i = j.
Proof. rewrite <- !ucamel_upper. congruence. Qed.

(** Decides whether the identifier of the graph is taken. *)
Lemma graph_clashes keywords field (composite : str -> str -> Prop) own g n i :
  (forall n i j, composite n i -> composite n j -> i = j) ->
  In n (map c_name (g_classes g) ++ map e_name (g_embeds g)) -> composite (g_name g) i -> composite n i ->
  ~ no_clash keywords field composite own g.
Proof.
  intros U Hn Hg Hc [(ids & I1 & I2 & _) _]. inversion I1 as [|? j ? ids' H1 H2]; subst.
  assert (j = i) by eauto. subst j. inversion I2 as [|? ? Hi _]; subst. apply Hi. clear -U H2 Hn Hc.
  revert H2 Hn. generalize (map c_name (g_classes g) ++ map e_name (g_embeds g)). intros names H.
  induction H as [|m j names ids Hj _ IH]; [contradiction|]. intros [-> | Hn]; [left; eauto | right; auto].
Qed.

Lemma lower_idem n : lower (lower n) = lower n.
Proof. unfold lower. rewrite map_map. apply map_ext, lower_c_idem. Qed.

(** * C36: Python *)

(** No errors are reported if and only if there is no clash, up to a class or an embed
    with the identifier of the graph, and with the keywords before Python 3.7. *)
Theorem C36_no_errors_partial g :
  py_validate g = Ok [] <-> no_clash_but_graph python36_keywords lowered camel_composite (s_ "id") g.
Proof. apply validate_schema_nil; [exact as_attribute_lowered | exact as_composite_camel]. Qed.

Theorem C36_no_clash_partial g :
  graph_apart camel_composite g -> py_validate g = Ok [] -> no_clash python36_keywords lowered camel_composite (s_ "id") g.
Proof. intros A H. apply graph_apart_no_clash; [exact camel_unique | exact A | now apply C36_no_errors_partial]. Qed.

(** A reported error is a clash between the parts at the references. *)
Theorem C36_errors_real g errs e :
  py_validate g = Ok errs -> In e errs -> real python36_keywords lowered camel_composite (s_ "id") g e.
Proof. apply validate_schema_real; [exact as_attribute_lowered | exact as_composite_camel]. Qed.

(** There is a result if and only if all names can be converted. *)
Theorem C36_returns_partial g :
  (exists errs, py_validate g = Ok errs) <-> convertible lowered camel_composite g.
Proof. apply validate_schema_returns; [exact as_attribute_lowered | exact as_composite_camel]. Qed.

(** Accepted documents without errors, but with a class with the identifier of the
    graph, ... *)
Definition graph_as_class : jval := with_properties [plain_class "SomeGraph" []] [].
Theorem C36_graph_refuted :
  json_wf graph_as_class /\ forall re_ok ordered ref, exists s,
    schema_from_mapping re_ok ordered graph_as_class ref = Ok s /\ py_validate (sc_graph s) = Ok [] /\
    ~ no_clash python36_keywords lowered camel_composite (s_ "id") (sc_graph s).
Proof.
  split; [apply wf_parts; vm_compute; reflexivity|]. intros re_ok ordered ref. eexists.
  split; [destruct ordered; reflexivity|]. split; [reflexivity|].
  eapply (graph_clashes _ _ _ _ _ (s_ "SomeGraph") (s_ "SomeGraph")); [exact camel_unique | now left | |]; apply as_composite_camel; reflexivity.
Qed.
(** ... with a keyword of Python 3.7, ... *)
Definition async_property : jval := with_properties [] [("async", property [("type", txt "boolean")])]%string.
Theorem C36_keyword_refuted :
  json_wf async_property /\ forall re_ok ordered ref, exists s,
    schema_from_mapping re_ok ordered async_property ref = Ok s /\ py_validate (sc_graph s) = Ok [] /\
    ~ no_clash_but_graph python37_keywords lowered camel_composite (s_ "id") (sc_graph s).
Proof.
  split; [apply wf_parts; vm_compute; reflexivity|]. intros re_ok ordered ref. eexists.
  split; [destruct ordered; reflexivity|]. split; [reflexivity|].
  intros (_ & _ & _ & _ & (ids & H1 & _ & H2)). inversion H1 as [|? i ? ? Hi _]; subst. destruct Hi as [_ Hi].
  apply (H2 i); [now left|]. left. rewrite Hi. reflexivity.
Qed.
(** ... and an accepted document for which there is no result. *)
Definition two_underscores : jval := with_properties [plain_class "Some__class" []] [].
Theorem C36_raises_refuted :
  json_wf two_underscores /\ forall re_ok ordered ref, exists s,
    schema_from_mapping re_ok ordered two_underscores ref = Ok s /\ py_validate (sc_graph s) = Raise IndexError.
Proof.
  split; [apply wf_parts; vm_compute; reflexivity|]. intros re_ok ordered ref. eexists.
  split; [destruct ordered; reflexivity | reflexivity].
Qed.

(** * C38: C++ *)

Definition cpp_all : list str := cpp_keywords ++ cpp_later.
Lemma cpp_same i : In i CPP_KEYWORDS <-> In i cpp_all.
Proof.
  rewrite <- !mem_In. split; intros H; apply mem_In in H.
  - assert (A : forallb (fun i => mem i cpp_all) CPP_KEYWORDS = true) by (vm_compute; reflexivity).
    rewrite forallb_forall in A. now apply A.
  - assert (A : forallb (fun i => mem i CPP_KEYWORDS) cpp_all = true) by (vm_compute; reflexivity).
    rewrite forallb_forall in A. now apply A.
Qed.

Theorem C38_no_errors_partial g :
  cpp_validate g = Ok [] <-> no_clash_but_graph cpp_all lowered camel_composite (s_ "id") g.
Proof.
  destruct (keywords_ext _ _ lowered camel_composite (s_ "id") cpp_same) as [E _]. rewrite <- E.
  apply validate_schema_nil; [exact as_attribute_lowered | exact as_composite_camel].
Qed.
Theorem C38_no_clash_partial g :
  graph_apart camel_composite g -> cpp_validate g = Ok [] -> no_clash cpp_all lowered camel_composite (s_ "id") g.
Proof. intros A H. apply graph_apart_no_clash; [exact camel_unique | exact A | now apply C38_no_errors_partial]. Qed.
Theorem C38_errors_real g errs e :
  cpp_validate g = Ok errs -> In e errs -> real cpp_all lowered camel_composite (s_ "id") g e.
Proof.
  destruct (keywords_ext _ _ lowered camel_composite (s_ "id") cpp_same) as [_ E]. rewrite <- E.
  apply validate_schema_real; [exact as_attribute_lowered | exact as_composite_camel].
Qed.
Theorem C38_returns_partial g :
  (exists errs, cpp_validate g = Ok errs) <-> convertible lowered camel_composite g.
Proof. apply validate_schema_returns; [exact as_attribute_lowered | exact as_composite_camel]. Qed.

Lemma usable_as_stated keywords names :
  (forall k, In k keywords -> lower k = k) -> usable keywords lowered names ->
  NoDup names /\ (forall n, In n names -> ~ In n keywords).
Proof.
  intros K (ids & H & N & U). split.
  - revert N. clear U. induction H as [|n i names ids [_ Hi] H IH]; intros N; constructor; inversion N as [|? ? Hn Hd]; subst; auto.
    intros Hin. apply Hn. clear -H Hin. induction H as [|m j names ids [_ Hj] _ IH]; [contradiction|].
    destruct Hin as [-> | Hin]; [left; exact Hj | right; auto].
  - intros n Hn Hk. assert (E : In (lower n) ids).
    { clear -H Hn. induction H as [|m j names ids [_ Hj] _ IH]; [contradiction|]. destruct Hn as [-> | Hn]; [left; exact Hj | right; auto]. }
    rewrite (K n Hk) in E. apply (U n E Hk).
Qed.
Lemma cpp_all_lower k : In k cpp_all -> lower k = k.
Proof.
  assert (A : forallb (fun k => str_eqb (lower k) k) cpp_all = true) by (vm_compute; reflexivity).
  rewrite forallb_forall in A. intros H. apply str_eqb_eq. now apply A.
Qed.

(** The names of the properties are used in the declarations as they are; they are
    distinct and no keywords, too, and differ from the registries and the
    identifier. *)
Theorem C38_declared g :
  cpp_validate g = Ok [] ->
  (forall ps, In ps (composites g) -> NoDup (map p_name ps) /\ forall p, In p ps -> ~ In (p_name p) cpp_all) /\
  (forall c p, In c (g_classes g) -> In p (c_props c) -> p_name p <> s_ "id") /\
  (forall c p, In c (g_classes g) -> In p (g_props g) -> p_name p <> lower (c_plural c)).
Proof.
  intros H. apply C38_no_errors_partial in H. destruct H as (_ & _ & Hc & He & Hg). split; [|split].
  - intros ps Hps. assert (U : usable cpp_all lowered (map p_name ps)).
    { unfold composites in Hps. rewrite !in_app_iff in Hps. destruct Hps as [Hps | [Hps | [<- | []]]].
      - apply in_map_iff in Hps. destruct Hps as (c & <- & Hin). now apply Hc.
      - apply in_map_iff in Hps. destruct Hps as (e & <- & Hin). now apply He.
      - destruct Hg as (ids & A & B & C). apply Forall2_app_inv_l in A. destruct A as (i1 & i2 & A1 & A2 & ->).
        exists i1. split; [assumption|]. split; [now apply NoDup_app_parts in B | intros i Hi; apply C, in_or_app; now left]. }
    apply usable_as_stated in U; [|exact cpp_all_lower]. destruct U as [U1 U2]. split; [assumption|].
    intros p Hp. apply U2. now apply in_map.
  - intros c p Hin Hp E. apply (proj2 (Hc c Hin) p Hp). rewrite E. split; [discriminate | reflexivity].
  - intros c p Hin Hp E. destruct Hg as (ids & A & B & _). apply Forall2_app_inv_l in A. destruct A as (i1 & i2 & A1 & A2 & ->).
    apply NoDup_app_parts in B. destruct B as (_ & _ & B).
    assert (T : forall names ids n, Forall2 lowered names ids -> In n names -> In (lower n) ids).
    { clear. intros names ids n H Hn. induction H as [|m j names ids [_ Hj] _ IH]; [contradiction|].
      destruct Hn as [-> | Hn]; [left; exact Hj | right; auto]. }
    apply (B (lower (c_plural c))).
    + assert (X := T _ _ _ A1 (in_map p_name _ _ Hp)). rewrite E, lower_idem in X. exact X.
    + apply (T _ _ _ A2). now apply in_map.
Qed.

Theorem C38_graph_refuted :
  json_wf graph_as_class /\ forall re_ok ordered ref, exists s,
    schema_from_mapping re_ok ordered graph_as_class ref = Ok s /\ cpp_validate (sc_graph s) = Ok [] /\
    ~ no_clash cpp_all lowered camel_composite (s_ "id") (sc_graph s).
Proof.
  split; [apply wf_parts; vm_compute; reflexivity|]. intros re_ok ordered ref. eexists.
  split; [destruct ordered; reflexivity|]. split; [reflexivity|].
  eapply (graph_clashes _ _ _ _ _ (s_ "SomeGraph") (s_ "SomeGraph")); [exact camel_unique | now left | |]; apply as_composite_camel; reflexivity.
Qed.
Theorem C38_raises_refuted :
  json_wf two_underscores /\ forall re_ok ordered ref, exists s,
    schema_from_mapping re_ok ordered two_underscores ref = Ok s /\ cpp_validate (sc_graph s) = Raise IndexError.
Proof.
  split; [apply wf_parts; vm_compute; reflexivity|]. intros re_ok ordered ref. eexists.
  split; [destruct ordered; reflexivity | reflexivity].
Qed.

(** * C37: Go *)

Lemma go_same i : In i GO_KEYWORDS <-> In i go_keywords.
Proof.
  rewrite <- !mem_In. split; intros H; apply mem_In in H.
  - assert (A : forallb (fun i => mem i go_keywords) GO_KEYWORDS = true) by (vm_compute; reflexivity).
    rewrite forallb_forall in A. now apply A.
  - assert (A : forallb (fun i => mem i GO_KEYWORDS) go_keywords = true) by (vm_compute; reflexivity).
    rewrite forallb_forall in A. now apply A.
Qed.

Lemma go_reserved_returns g : convertible upper_camel upper_camel g -> exists l, go_reserved_names g = Ok l.
Proof.
  intros (A & _ & _). unfold go_reserved_names.
  assert (M : exists ids, mapM ucamel_case (g_name g :: map c_name (g_classes g) ++ map e_name (g_embeds g)) = Ok ids).
  { revert A. generalize (g_name g :: map c_name (g_classes g) ++ map e_name (g_embeds g)). clear.
    induction l as [|n l IH]; intros A; [exists []; reflexivity|]. destruct (A n) as (i & Hi); [now left|]. apply ucamel_upper in Hi.
    destruct IH as (ids & E); [intros m Hm; apply A; now right|]. exists (i :: ids). cbn [mapM]. rewrite Hi. cbn [bind]. rewrite E. reflexivity. }
  destruct M as (ids & ->). cbn. eauto.
Qed.

(** No errors are reported if and only if there is no clash, up to a class or an embed
    with the identifier of the graph, and the formats do not contain parts of layouts. *)
Theorem C37_no_errors_partial g :
  go_validate g = Ok [] <->
  no_clash_but_graph go_keywords upper_camel upper_camel (s_ "ID") g /\
  forall t ref f, value_type g t ref -> has_format t f -> go_usable f.
Proof.
  destruct (keywords_ext _ _ upper_camel upper_camel (s_ "ID") go_same) as [E _]. rewrite <- E. clear E.
  rewrite <- (validate_schema_nil GO_KEYWORDS ucamel_case ucamel_case (s_ "ID") upper_camel upper_camel ucamel_upper ucamel_upper).
  assert (F : (forall t ref f, value_type g t ref -> has_format t f -> go_usable f) <-> validate_formats (iterate_over_types g) = Ok []).
  { rewrite validate_formats_nil. split; intros H t r f Hin; apply (H t r f); now apply iterate_spec. }
  rewrite F. unfold go_validate.
  destruct (validate_schema GO_KEYWORDS ucamel_case ucamel_case (s_ "ID") g) as [errs|e] eqn:V; cbn [bind]; [|split; [discriminate | intros [H _]; discriminate]].
  assert (C : convertible upper_camel upper_camel g) by (eapply (validate_schema_returns GO_KEYWORDS); [exact ucamel_upper | exact ucamel_upper | eauto]).
  destruct (go_reserved_returns g C) as (l & ->). cbn [bind].
  destruct (validate_formats (iterate_over_types g)) as [fe|]; cbn [bind]; [|split; [discriminate | intros [_ H]; discriminate]].
  split; [intros H; injection H as H; apply app_eq_nil in H; destruct H as [-> ->]; auto | intros [H1 H2]; injection H1 as ->; injection H2 as ->; reflexivity].
Qed.
Theorem C37_no_clash_partial g :
  graph_apart upper_camel g -> go_validate g = Ok [] -> no_clash go_keywords upper_camel upper_camel (s_ "ID") g.
Proof. intros A H. apply graph_apart_no_clash; [exact upper_unique | exact A | now apply C37_no_errors_partial in H]. Qed.

(** A reported error is a clash between the parts at the references, or the type at the
    reference has a format which contains a part of a layout. *)
Theorem C37_errors_real g errs e :
  go_validate g = Ok errs -> In e errs ->
  real go_keywords upper_camel upper_camel (s_ "ID") g e \/
  exists t f w, value_type g t (le_ref e) /\ has_format t f /\ le_kind e = KDirective f /\ In w layout_elements /\ literally w f.
Proof.
  intros H Hin. unfold go_validate in H.
  destruct (validate_schema GO_KEYWORDS ucamel_case ucamel_case (s_ "ID") g) as [es|] eqn:V; cbn [bind] in H; [|discriminate].
  destruct (go_reserved_names g); cbn [bind] in H; [|discriminate].
  destruct (validate_formats (iterate_over_types g)) as [fe|] eqn:F; cbn [bind] in H; [|discriminate]. injection H as <-.
  apply in_app_or in Hin. destruct Hin as [Hin | Hin].
  - left. destruct (keywords_ext _ _ upper_camel upper_camel (s_ "ID") go_same) as [_ E]. rewrite <- E.
    eapply validate_schema_real; [exact ucamel_upper | exact ucamel_upper | exact V | exact Hin].
  - right. destruct (validate_formats_real _ _ _ F Hin) as (t & f & w & A & B). exists t, f, w. split; [now apply iterate_spec | exact B].
Qed.
Theorem C37_returns_partial g :
  (exists errs, go_validate g = Ok errs) <->
  convertible upper_camel upper_camel g /\
  forall t ref f, value_type g t ref -> has_format t f -> format_over all_letters f.
Proof.
  assert (F : (forall t ref f, value_type g t ref -> has_format t f -> format_over all_letters f) <-> exists errs, validate_formats (iterate_over_types g) = Ok errs).
  { rewrite validate_formats_returns. split; intros H t r f Hin; apply (H t r f); now apply iterate_spec. }
  rewrite F, <- (validate_schema_returns GO_KEYWORDS ucamel_case ucamel_case (s_ "ID") upper_camel upper_camel ucamel_upper ucamel_upper).
  unfold go_validate. split.
  - intros (errs & H). destruct (validate_schema _ _ _ _ g) eqn:V; cbn [bind] in H; [|discriminate].
    destruct (go_reserved_names g); cbn [bind] in H; [|discriminate].
    destruct (validate_formats (iterate_over_types g)) eqn:V2; cbn [bind] in H; [|discriminate]. eauto.
  - intros [(errs & V) (fe & ->)]. rewrite V. cbn [bind].
    assert (C : convertible upper_camel upper_camel g) by (eapply (validate_schema_returns GO_KEYWORDS); [exact ucamel_upper | exact ucamel_upper | eauto]).
    destruct (go_reserved_returns g C) as (l & ->). cbn. eauto.
Qed.

Theorem C37_graph_refuted :
  json_wf graph_as_class /\ forall re_ok ordered ref, exists s,
    schema_from_mapping re_ok ordered graph_as_class ref = Ok s /\ go_validate (sc_graph s) = Ok [] /\
    ~ no_clash go_keywords upper_camel upper_camel (s_ "ID") (sc_graph s).
Proof.
  split; [apply wf_parts; vm_compute; reflexivity|]. intros re_ok ordered ref. eexists.
  split; [destruct ordered; reflexivity|]. split; [reflexivity|].
  eapply (graph_clashes _ _ _ _ _ (s_ "SomeGraph") (s_ "SomeGraph")); [exact upper_unique | now left | |]; apply ucamel_upper; reflexivity.
Qed.
(** A class with the name of a type, and one with the name of a function, which the
    generated code declares *)
Definition reserved_class : jval := with_properties [plain_class "Errors" []; plain_class "Some_graphFromJSONable" []] [].
Theorem C37_reserved_refuted :
  json_wf reserved_class /\ forall re_ok ordered ref, exists s,
    schema_from_mapping re_ok ordered reserved_class ref = Ok s /\ go_validate (sc_graph s) = Ok [] /\
    forall c, In c (g_classes (sc_graph s)) -> exists i, upper_camel (c_name c) i /\ go_reserved upper_camel (sc_graph s) i.
Proof.
  split; [apply wf_parts; vm_compute; reflexivity|]. intros re_ok ordered ref. eexists.
  split; [destruct ordered; reflexivity|]. split; [reflexivity|]. intros c [<- | [<- | []]].
  - exists (s_ "Errors"). split; [apply ucamel_upper; reflexivity | left; now right; left].
  - exists (s_ "SomeGraphFromJSONable"). split; [apply ucamel_upper; reflexivity|]. right.
    exists (s_ "Some_graph"), (s_ "SomeGraph"). split; [now left|]. split; [apply ucamel_upper; reflexivity | now left].
Qed.
Theorem C37_raises_refuted :
  json_wf two_underscores /\ forall re_ok ordered ref, exists s,
    schema_from_mapping re_ok ordered two_underscores ref = Ok s /\ go_validate (sc_graph s) = Raise IndexError.
Proof.
  split; [apply wf_parts; vm_compute; reflexivity|]. intros re_ok ordered ref. eexists.
  split; [destruct ordered; reflexivity | reflexivity].
Qed.

(** * Schemas to which the theorems apply *)

Definition graph_of (v : jval) : option graph :=
  match schema_from_mapping (fun _ => true) true v [] with Ok s => Some (sc_graph s) | Raise _ => None end.

(** The document of [T_Validate] is accepted in all three languages. *)
Example demo_languages :
  option_map (fun g => (py_validate g, cpp_validate g, go_validate g)) (graph_of demo) = Some (Ok [], Ok [], Ok []).
Proof. vm_compute. reflexivity. Qed.

(** Errors of all kinds. *)
Definition clashing : jval :=
  with_properties
    [plain_class "Some_class" [("properties", obj [("ID", property [("type", txt "boolean")])])];
     plain_class "SomeClass" [("properties", obj [("Class", property [("type", txt "boolean")])])];
     plain_class "True" [("plural", txt "Some_classes")]]%string
    [("a_b", property [("type", txt "boolean")]); ("aB", property [("type", txt "boolean")]);
     ("a", property [("type", txt "boolean")]); ("A", property [("type", txt "boolean")]);
     ("for", property [("type", txt "date"); ("format", txt "%Y Jan")]);
     ("SomeClasses", property [("type", txt "boolean")])]%string.
Example clashing_reported :
  let e (r : string) k := LErr (s_ r) k in
  option_map (fun g => (py_validate g, cpp_validate g, go_validate g)) (graph_of clashing) =
  Some
    (Ok [e "/classes/0/ID"%string (KReservedId (s_ "id")); e "/classes/1"%string (KConflict (s_ "SomeClass") (s_ "/classes/0"));
         e "/classes/1/Class"%string (KKeyword (s_ "class")); e "/classes/2"%string (KKeyword (s_ "True"));
         e "/A"%string (KConflict (s_ "a") (s_ "/a")); e "/for"%string (KKeyword (s_ "for"));
         e "/classes/1"%string (KRegistryProperty (s_ "someclasses") (s_ "/SomeClasses"));
         e "/classes/2"%string (KRegistryRegistry (s_ "some_classes") (s_ "/classes/0"))],
     Ok [e "/classes/0/ID"%string (KReservedId (s_ "id")); e "/classes/1"%string (KConflict (s_ "SomeClass") (s_ "/classes/0"));
         e "/classes/1/Class"%string (KKeyword (s_ "class")); e "/A"%string (KConflict (s_ "a") (s_ "/a")); e "/for"%string (KKeyword (s_ "for"));
         e "/classes/1"%string (KRegistryProperty (s_ "someclasses") (s_ "/SomeClasses"));
         e "/classes/2"%string (KRegistryRegistry (s_ "some_classes") (s_ "/classes/0"))],
     Ok [e "/classes/0/ID"%string (KReservedId (s_ "ID")); e "/classes/1"%string (KConflict (s_ "SomeClass") (s_ "/classes/0"));
         e "/aB"%string (KConflict (s_ "AB") (s_ "/a_b")); e "/A"%string (KConflict (s_ "A") (s_ "/a"));
         e "/classes/0"%string (KRegistryProperty (s_ "SomeClasses") (s_ "/SomeClasses"));
         e "/classes/1"%string (KRegistryProperty (s_ "SomeClasses") (s_ "/SomeClasses"));
         e "/classes/1"%string (KRegistryRegistry (s_ "SomeClasses") (s_ "/classes/0"));
         e "/classes/2"%string (KRegistryProperty (s_ "SomeClasses") (s_ "/SomeClasses"));
         e "/classes/2"%string (KRegistryRegistry (s_ "SomeClasses") (s_ "/classes/0"));
         e "/for"%string (KDirective (s_ "%Y Jan"))]).
Proof. vm_compute. reflexivity. Qed.
(** The hypotheses of [C36_no_clash_partial] and of its counterparts hold for the
    document of [T_Validate]. *)
Example demo_apart : forall g, graph_of demo = Some g ->
  graph_apart camel_composite g /\ graph_apart upper_camel g /\ py_validate g = Ok [] /\ cpp_validate g = Ok [] /\ go_validate g = Ok [].
Proof.
  intros g H. vm_compute in H. injection H as <-.
  assert (A : graph_apart upper_camel (match graph_of demo with Some g => g | None => Graph [] [] [] [] [] [] end)).
  { intros n i Hn Hg Hc. apply ucamel_upper in Hg, Hc. vm_compute in Hg. injection Hg as <-.
    vm_compute in Hn. repeat destruct Hn as [Hn | Hn]; try contradiction; subst n; vm_compute in Hc; discriminate. }
  split; [|split; [exact A|]].
  - intros n i Hn [_ Hg] [_ Hc]. exact (A n i Hn Hg Hc).
  - repeat split; vm_compute; reflexivity.
Qed.

Print Assumptions C36_no_errors_partial.
Print Assumptions C36_no_clash_partial.
Print Assumptions C36_errors_real.
Print Assumptions C36_returns_partial.
Print Assumptions C36_graph_refuted.
Print Assumptions C36_keyword_refuted.
Print Assumptions C36_raises_refuted.
Print Assumptions C37_no_errors_partial.
Print Assumptions C37_no_clash_partial.
Print Assumptions C37_errors_real.
Print Assumptions C37_returns_partial.
Print Assumptions C37_graph_refuted.
Print Assumptions C37_reserved_refuted.
Print Assumptions C37_raises_refuted.
Print Assumptions C38_no_errors_partial.
Print Assumptions C38_no_clash_partial.
Print Assumptions C38_errors_real.
Print Assumptions C38_returns_partial.
Print Assumptions C38_declared.
Print Assumptions C38_graph_refuted.
Print Assumptions C38_raises_refuted.
