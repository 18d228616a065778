(** Theorems about the generated Python module with the types (properties C54 and C55). *)
From Coq Require Import String List Arith NArith ZArith Bool Lia Permutation.
From Verif Require Import Base M_Naming M_Schema M_Text M_LangValid M_Validate M_PyTypes S_Conform S_Validate S_LangValid S_PyTypes
  P_Common P_TypeGraph P_Parsed P_LangValid P_GoImports P_PyTypes T_Text T_Validate T_LangValid T_EndToEnd T_GoImports.
Import ListNotations.
Open Scope list_scope.

(** The settings of accepted documents. *)
Lemma document_settings s v py : document_of s v -> sc_py s = Some py -> known_settings py.
Proof.
  intros (Hw & re_ok & ordered & ref & H) E. destruct (accepted_document _ _ _ _ _ Hw H) as (Hd & _).
  destruct (accepted_describes _ _ _ _ _ Hw H) as (_ & l & -> & _ & _ & HP). rewrite E in HP.
  destruct HP as [(w & Hin & m & x & -> & Ex & HP)|(_ & X)]; [|discriminate]. injection Ex as <-. destruct HP as (_ & P1 & P2 & _).
  inversion Hw as [| | | | | |? N K]; subst. assert (Wm := K _ _ Hin). inversion Wm as [| | | | | |? Nm _]; subst.
  inversion Hd; subst. match goal with H : maybe _ "py" _ |- _ => specialize (H _ Hin) as (m' & Em & _ & _ & Q1 & Q2 & _) end.
  injection Em as <-. split.
  - destruct Q1 as (w & Hw1 & (t & -> & Ht)).
    apply (In_lookup _ _ _ Nm) in P1. rewrite (In_lookup _ _ _ Nm Hw1) in P1. injection P1 as <-. exact Ht.
  - destruct Q2 as (w & Hw1 & (t & -> & Ht)).
    apply (In_lookup _ _ _ Nm) in P2. rewrite (In_lookup _ _ _ Nm Hw1) in P2. injection P2 as <-. exact Ht.
Qed.

(** * C54: the module can be imported *)

(** The module of an accepted document which passes the validation for Python is imported
    without errors and defines all the classes, if no attribute is called self. *)
Theorem C54_importable_partial v s py :
  document_of s v -> sc_py s = Some py -> py_validate (sc_graph s) = Ok [] -> no_attribute (s_ "self") (sc_graph s) ->
  exists m names, types_module py (sc_graph s) = Ok m /\ import_module python36_keywords m = Done names /\
    forall n, In n (g_name (sc_graph s) :: map c_name (g_classes (sc_graph s)) ++ map e_name (g_embeds (sc_graph s))) ->
      exists i, camel_composite n i /\ In i names.
Proof.
  intros Hd Es Hv Hs. assert (HR := document_resolved _ _ Hd). assert (HS := document_settings _ _ _ Hd Es).
  apply C36_no_errors_partial in Hv.
  destruct (module_ok _ _ HR HS Hv Hs) as (m & cs & es & d & E & ED & F1 & F2 & S & _ & names & EM & Hn).
  exists m, names. split; [exact E|]. split; [exact EM|]. intros n [<-|H]; [|apply in_app_or in H as [H|H]; apply in_map_iff in H as (c & <- & Hc)].
  - exists (de_name d). split; [apply as_composite_camel, S|]. apply Hn. rewrite ED, !map_app, !in_app_iff. right. right. now left.
  - destruct (Forall2_In_l _ _ _ F1 _ Hc) as (x & Hx & Sx). exists (de_name x). split; [apply as_composite_camel, Sx|].
    apply Hn, in_map. rewrite ED, !in_app_iff. now left.
  - destruct (Forall2_In_l _ _ _ F2 _ Hc) as (x & Hx & Sx). exists (de_name x). split; [apply as_composite_camel, Sx|].
    apply Hn, in_map. rewrite ED, !in_app_iff. right. now left.
Qed.

Definition with_py (l : list (string * jval)) : jval :=
  obj (([("name", txt "Shop"); ("description", txt "defines a shop.");
        ("py", obj [("module_name", txt "some.shop"); ("path_as", txt "pathlib.Path"); ("timezone_as", txt "pytz.timezone")])]%string) ++ l).

(** A property may be called self. *)
Definition selfish : jval := with_py [("properties", obj [("self", property [("type", txt "boolean")])])]%string.
Theorem C54_self_refuted : exists v s py m,
  document_of s v /\ sc_py s = Some py /\ py_validate (sc_graph s) = Ok [] /\
  types_module py (sc_graph s) = Ok m /\ import_module python36_keywords m = Failed SyntaxError.
Proof.
  exists selfish. destruct (schema_from_mapping (fun _ => true) true selfish []) as [s|e] eqn:E; [|vm_compute in E; discriminate].
  exists s. assert (D : document_of s selfish) by (split; [apply wf_parts; vm_compute; reflexivity|eauto]).
  vm_compute in E. injection E as <-. do 2 eexists. split; [exact D|]. split; [reflexivity|]. split; [vm_compute; reflexivity|].
  split; vm_compute; reflexivity.
Qed.

(** * C55: the constructors *)

(** Each class, embeddable structure and the graph has a constructor which takes exactly the
    attributes as arguments, demands exactly the required ones, and stores what it is given. *)
Section Constructors.
  Variables (v : jval) (s : schema) (py : py_conf).
  Hypothesis Hd : document_of s v.
  Hypothesis Es : sc_py s = Some py.
  Hypothesis Hv : py_validate (sc_graph s) = Ok [].
  Hypothesis Hs : no_attribute (s_ "self") (sc_graph s).
  Hypothesis Ha : graph_apart camel_composite (sc_graph s).
  Let g := sc_graph s.

  Let facts : exists m cs es d, types_module py g = Ok m /\ mo_definitions m = cs ++ es ++ [d] /\
    Forall2 class_shape (g_classes g) cs /\ Forall2 embed_shape (g_embeds g) es /\ graph_shape g d /\
    (g_classes g <> [] -> In (s_ "collections") (mo_imports m)) /\ NoDup (map de_name (mo_definitions m)).
  Proof.
    assert (HR := document_resolved _ _ Hd). assert (HS := document_settings _ _ _ Hd Es).
    assert (NC := proj1 (C36_no_errors_partial _) Hv).
    destruct (module_ok _ _ HR HS NC Hs) as (m & cs & es & d & E & ED & F1 & F2 & S & HC & _).
    exists m, cs, es, d. do 6 (split; [assumption|]). destruct NC as (_ & (ids & FI & NI & _) & _).
    assert (FC : Forall2 camel_composite (map c_name (g_classes g) ++ map e_name (g_embeds g)) (map de_name (cs ++ es))).
    { rewrite map_app. apply Forall2_app.
      - clear -F1. fold g in F1. induction F1 as [|c x l l' H _ IH]; constructor; [apply as_composite_camel, H|exact IH].
      - clear -F2. fold g in F2. induction F2 as [|c x l l' H _ IH]; constructor; [apply as_composite_camel, H|exact IH]. }
    assert (EI : ids = map de_name (cs ++ es)).
    { fold g in FI. clear -FI FC. revert FC. generalize (map de_name (cs ++ es)) as l. induction FI as [|n i names ids Hi _ IH]; intros l FC; inversion FC; subst; [reflexivity|].
      f_equal; [eapply camel_unique; eauto|now apply IH]. }
    rewrite ED, app_assoc, map_app. apply NoDup_app_intro.
    - now rewrite <- EI.
    - repeat constructor; intros [].
    - intros x Hx [<-|[]]. destruct (Forall2_In_r _ _ _ FC _ Hx) as (n & Hn & Hi). eapply Ha; [exact Hn|apply as_composite_camel, S|exact Hi].
  Qed.

  Lemma means_In m d : NoDup (map de_name (mo_definitions m)) -> In d (mo_definitions m) -> means m (de_name d) d.
  Proof.
    intros N H. apply in_split in H as (before & after & E). exists before, after. split; [exact E|]. split; [reflexivity|].
    rewrite E, map_app in N. cbn [map] in N. apply NoDup_remove in N as (_ & N). intros X. apply N. apply in_or_app. now right.
  Qed.

  Lemma definition_eta d x : de_init d = x -> d = Definition_ (de_name d) x.
  Proof. destruct d. cbn. now intros ->. Qed.

  Lemma attribute_names ps : usable python36_keywords lowered (map p_name ps) -> NoDup (map (fun p => lower (p_name p)) (order_by_optional ps)).
  Proof. intros H. apply usable_lowered in H as (H & _). rewrite map_map in H. eapply Permutation_NoDup; [apply ordered_names|exact H]. Qed.

  Theorem C55_class_partial c : In c (g_classes g) ->
    exists m i d, types_module py g = Ok m /\ camel_composite (c_name c) i /\ means m i d /\
    forall V (args : list (str * M_PyTypes.value V)), NoDup (keys args) ->
      let required := s_ "id" :: required_of (c_props c) in let optional := optional_in (c_props c) in
      (call_with required optional args ->
       exists attrs, construct V m d args = Done attrs /\ built required optional args attrs) /\
      (~ call_with required optional args ->
       exists n, construct V m d args = Failed (UnexpectedArgument n) \/ construct V m d args = Failed (MissingArgument n)).
  Proof.
    intros Hc. destruct facts as (m & cs & es & d & E & ED & F1 & F2 & S & HC & N).
    destruct (Forall2_In_l _ _ _ F1 _ Hc) as (x & Hx & Sx). destruct Sx as (En & params & EI & E1 & E2).
    exists m, (de_name x), x. split; [exact E|]. split; [now apply as_composite_camel|].
    split; [apply means_In; [exact N|rewrite ED, !in_app_iff; now left]|]. intros V args NA.
    rewrite (definition_eta x _ EI).
    assert (NC := proj1 (C36_no_errors_partial _) Hv). destruct NC as (_ & _ & FC & _). destruct (FC c Hc) as (U & Own).
    apply (construct_plain V m (de_name x) params _ [s_ "id"] (c_props c) args); auto.
    - cbn [map app attr_of]. now rewrite statements_attrs.
    - cbn [existsb is_registry orb]. apply statements_plain.
    - rewrite E1. constructor; [|now apply attribute_names]. intros X. apply in_map_iff in X as (p & Ep & Hp).
      apply (proj1 (ordered_In _ _)) in Hp. apply (Own p Hp). split; [|now rewrite Ep]. apply usable_lowered in U as (_ & U). apply U. now apply in_map.
  Qed.

  Theorem C55_embed_partial e : In e (g_embeds g) ->
    exists m i d, types_module py g = Ok m /\ camel_composite (e_name e) i /\ means m i d /\
    forall V (args : list (str * M_PyTypes.value V)), NoDup (keys args) ->
      let required := required_of (e_props e) in let optional := optional_in (e_props e) in
      (call_with required optional args ->
       exists attrs, construct V m d args = Done attrs /\ built required optional args attrs) /\
      (~ call_with required optional args ->
       exists n, construct V m d args = Failed (UnexpectedArgument n) \/ construct V m d args = Failed (MissingArgument n)).
  Proof.
    intros He. destruct facts as (m & cs & es & d & E & ED & F1 & F2 & S & HC & N).
    destruct (Forall2_In_l _ _ _ F2 _ He) as (x & Hx & Sx). destruct Sx as (En & Sx).
    exists m, (de_name x), x. split; [exact E|]. split; [now apply as_composite_camel|].
    split; [apply means_In; [exact N|rewrite ED, !in_app_iff; right; now left]|]. intros V args NA.
    assert (NC := proj1 (C36_no_errors_partial _) Hv). destruct NC as (_ & _ & _ & FE & _). assert (U := FE e He).
    destruct Sx as [(E0 & EI)|(params & EI & E1 & E2)]; rewrite (definition_eta x _ EI).
    - rewrite E0. cbn [required_of optional_in filter map]. unfold construct. cbn [de_init]. split.
      + intros (_ & _ & C). destruct args as [|(a, w) args]; [|destruct (C a); now left].
        exists []. split; [reflexivity|]. split; [constructor|]. split; [reflexivity|]. split; [intros ? ? []|intros ? []].
      + intros C. destruct args as [|(a, w) args]; [|eauto]. exfalso. apply C. split; [constructor|]. split; intros ? [].
    - apply (construct_plain V m (de_name x) params _ [] (e_props e) args); auto.
      + cbn [app]. apply statements_attrs.
      + apply statements_plain.
      + rewrite E1. now apply attribute_names.
  Qed.

  Theorem C55_graph_partial :
    (g_classes g <> [] -> (forall p, In p (g_props g) -> lower (p_name p) <> s_ "collections") /\ ~ In (s_ "collections") (registries_of g)) ->
    exists m i d, types_module py g = Ok m /\ camel_composite (g_name g) i /\ means m i d /\
    forall V (args : list (str * M_PyTypes.value V)), NoDup (keys args) ->
      let required := required_of (g_props g) in let optional := optional_in (g_props g) in let registries := registries_of g in
      (call_with required (optional ++ registries) args ->
       exists attrs, construct V m d args = Done attrs /\ built_graph required optional registries args attrs) /\
      (~ call_with required (optional ++ registries) args ->
       exists n, construct V m d args = Failed (UnexpectedArgument n) \/ construct V m d args = Failed (MissingArgument n)).
  Proof.
    intros Hcol. destruct facts as (m & cs & es & d & E & ED & F1 & F2 & S & HC & N). destruct S as (En & S).
    exists m, (de_name d), d. split; [exact E|]. split; [now apply as_composite_camel|].
    split; [apply means_In; [exact N|rewrite ED, !in_app_iff; right; right; now left]|]. intros V args NA.
    assert (NC := proj1 (C36_no_errors_partial _) Hv). destruct NC as (_ & _ & _ & _ & U).
    destruct S as [(E0 & E0' & EI)|(params & EI & E1 & E2)]; rewrite (definition_eta d _ EI).
    - unfold registries_of. rewrite E0, E0'. cbn [required_of optional_in filter map app]. unfold construct. cbn [de_init]. split.
      + intros (_ & _ & C). destruct args as [|(a, w) args]; [|destruct (C a); now left].
        exists []. split; [reflexivity|]. split; [constructor|]. split; [reflexivity|]. repeat split; intros ? []; intros; contradiction.
      + intros C. destruct args as [|(a, w) args]; [|eauto]. exfalso. apply C. split; [constructor|]. split; intros ? [].
    - apply construct_graph; auto.
      + intros Hne. split; [|now apply HC]. destruct (Hcol Hne) as (H1 & H2). rewrite E1, in_app_iff. intros [X|X]; [|now apply H2].
        apply in_map_iff in X as (p & Ep & Hp). apply (proj1 (ordered_In _ _)) in Hp. now apply (H1 p Hp).
      + rewrite E1. apply usable_lowered in U as (U & _). rewrite map_app, !map_map in U.
        eapply Permutation_NoDup; [apply Permutation_app; [apply ordered_names|apply Permutation_refl]|exact U].
  Qed.
End Constructors.

(** A class may be called Collection; the graph cannot be created without its registry then. *)
Definition collected : jval := with_py [("classes", JArr [plain_class "Collection" []])]%string.
Theorem C55_collections_refuted : exists v s py m i d,
  document_of s v /\ sc_py s = Some py /\ py_validate (sc_graph s) = Ok [] /\ no_attribute (s_ "self") (sc_graph s) /\
  types_module py (sc_graph s) = Ok m /\ camel_composite (g_name (sc_graph s)) i /\ means m i d /\
  required_of (g_props (sc_graph s)) = [] /\ forall V, construct V m d [] = Failed (NoAttribute (s_ "OrderedDict")).
Proof.
  exists collected. destruct (schema_from_mapping (fun _ => true) true collected []) as [s|e] eqn:E; [|vm_compute in E; discriminate].
  exists s. assert (D : document_of s collected) by (split; [apply wf_parts; vm_compute; reflexivity|eauto]).
  vm_compute in E. injection E as <-. do 4 eexists. split; [exact D|]. split; [reflexivity|]. split; [vm_compute; reflexivity|].
  split. { split; [intros ps p [<-|[<-|[]]] []|]. intros c [<-|[]]. vm_compute. discriminate. }
  split; [vm_compute; reflexivity|]. split; [apply as_composite_camel; vm_compute; reflexivity|].
  split. { exists [Definition_ (s_ "Collection") (Some ([Param (s_ "id") (AName (s_ "str")) false], [SetAttr (s_ "id")]))], [].
    split; [reflexivity|]. split; [reflexivity|intros []]. }
  split; [reflexivity|]. intros V. vm_compute. reflexivity.
Qed.

Lemma no_property a (l : list (list prop)) : forallb (forallb (fun p => negb (str_eqb (lower (p_name p)) a))) l = true ->
  forall ps p, In ps l -> In p ps -> lower (p_name p) <> a.
Proof.
  intros H ps p Hps Hp <-. rewrite forallb_forall in H. specialize (H _ Hps). rewrite forallb_forall in H. specialize (H _ Hp).
  rewrite str_eqb_refl in H. discriminate.
Qed.

(** A case with references forth and back: the hypotheses hold, and so does the conclusion. *)
Definition people : jval := with_py [
  ("classes", JArr [
     plain_class "Person" [("properties", obj [
        ("born", property [("type", txt "date")]);
        ("home", property [("type", txt "Address"); ("optional", JBool true)]);
        ("photo", property [("type", txt "path")]);
        ("friends", property [("type", txt "array"); ("values", obj [("type", txt "Person")])])])]]);
  ("embeds", JArr [plain_class "Address" [("properties", obj [
        ("zone", property [("type", txt "time_zone")]);
        ("owner", property [("type", txt "Person")])])]]);
  ("properties", obj [("head", property [("type", txt "Person"); ("optional", JBool true)])])]%string.
Example people_hypotheses : exists s py,
  document_of s people /\ sc_py s = Some py /\ py_validate (sc_graph s) = Ok [] /\ no_attribute (s_ "self") (sc_graph s) /\
  graph_apart camel_composite (sc_graph s) /\
  (forall p, In p (g_props (sc_graph s)) -> lower (p_name p) <> s_ "collections") /\ ~ In (s_ "collections") (registries_of (sc_graph s)).
Proof.
  destruct (schema_from_mapping (fun _ => true) true people []) as [s|e] eqn:E; [|vm_compute in E; discriminate].
  exists s. assert (D : document_of s people) by (split; [apply wf_parts; vm_compute; reflexivity|eauto]).
  vm_compute in E. injection E as <-. eexists. split; [exact D|]. split; [reflexivity|]. split; [vm_compute; reflexivity|].
  split. { split.
    - apply no_property. vm_compute. reflexivity.
    - intros c [<-|[]]. vm_compute. discriminate. }
  split. { intros n i Hn H1 H2. apply as_composite_camel in H1, H2. cbn in Hn. destruct Hn as [<-|[<-|[]]]; vm_compute in H1, H2; congruence. }
  split; [intros p [<-|[]]; vm_compute; discriminate|]. vm_compute. intros [X|[]]; discriminate.
Qed.

Print Assumptions C54_importable_partial.
Print Assumptions C54_self_refuted.
Print Assumptions C55_class_partial.
Print Assumptions C55_embed_partial.
Print Assumptions C55_graph_partial.
Print Assumptions C55_collections_refuted.
