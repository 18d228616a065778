(** Theorems about the errors which the validation of a schema reports (C63). *)
From Coq Require Import String List Arith NArith ZArith QArith Bool Lia Floats.SpecFloat.
From Verif Require Import Base M_Naming M_Schema M_Dec M_Strftime M_Validate S_Conform P_Naming S_Validate P_Validate
  P_ValidateType P_ValidateDoc T_Validate S_SchemaErrors P_SchemaErrors P_SchemaErrorsDoc P_SchemaShape.
Import ListNotations.
Open Scope list_scope.
Local Open Scope nat_scope.

(** * Errors are real and located *)

(** The document [v] is wrong, as the [kind] says, at the end of the [path]. *)
Definition wrong (re_ok : str -> bool) (ordered : bool) (v : jval) (path : list str) (kind : skind) : Prop :=
  match kind with
  | EJsonSchema _ => misshapen v path
  | _ => exists l, v = JObj l /\ fault re_ok ordered l path kind
  end.

Lemma validate_cases re_ok ordered v ref errs : json_wf v -> validate re_ok ordered v ref = Ok errs ->
  (errs = [SErr ref (EJsonSchema (jblame GRAPH v))] /\ jblame GRAPH v <> []) \/
  ((forall path, ~ misshapen v path) /\ exists l, v = JObj l /\ graph_shape l).
Proof.
  intros Hw H. destruct (jvalid GRAPH v) eqn:Ej.
  - right. split.
    + intros path Hm. apply blamed_iff in Hm; auto. apply jblame_nil in Ej; auto. rewrite Ej in Hm. contradiction.
    + now apply j_graph.
  - left. unfold validate in H. rewrite Ej in H. cbn [negb] in H. split; [congruence|]. intros E. apply jblame_nil in E; auto. congruence.
Qed.

(** Each error says what is wrong at a place of the document, and its reference leads there.
    There are two exceptions. For a property of the graph that is called like a registry, the
    reference is that of a member of the graph. If the definition of the values is missing, there
    is a slash at the end of the reference. *)
Theorem C63_errors_partial re_ok ordered v ref errs e :
  json_wf v -> validate re_ok ordered v ref = Ok errs -> In e errs ->
  se_refs e <> [] /\
  forall r, In r (se_refs e) -> exists path w,
    wrong re_ok ordered v path (se_kind e) /\ leads path v w /\
    (r = reference ref path \/
     (exists n cn, se_kind e = EPlural n cn /\ path = [s_ "properties"; n] /\ r = reference ref [n]) \/
     (exists paths m, se_kind e = ETypeSchema paths /\ w = JObj m /\ no_member m "values" /\ r = reference ref path ++ s_ "/")).
Proof.
  intros Hw H He. destruct (validate_cases _ _ _ _ _ Hw H) as [[-> Hne] | [_ (l & -> & Hs)]].
  - destruct He as [<-|[]]. cbn [se_refs se_kind se_ref]. split; [intros E; apply Hne; now apply map_nil in E|].
    intros r Hr. apply in_map_iff in Hr. destruct Hr as (path & <- & Hp). destruct (jblame_leads _ _ _ Hp) as (w & Hl).
    exists path, w. split; [now apply blamed_iff|]. split; [exact Hl|]. left. apply reference_join.
  - destruct (all_errors re_ok ordered ref l Hw Hs errs H) as [Hall _]. destruct (Hall e He) as [[Hne Ht] | (n & cn & Hp & ->)].
    + split; [exact Hne|]. intros r Hr. destruct (Ht r Hr) as (path & w & A & B & C). exists path, w. split.
      * unfold wrong. destruct (se_kind e) eqn:Ek; eauto. exfalso.
        inversion A as [? ? Hb|? ? ? ? ? ? sub ? ? ? ? Hb|]; subst; [inversion Hb|]. clear - Hb. remember (EJsonSchema paths) as kind eqn:E. induction Hb; try discriminate; auto.
      * split; [exact B|]. destruct C as [C|C]; auto.
    + cbn [se_refs se_kind se_ref]. split; [discriminate|]. intros r [<-|[]]. assert (Hp' := Hp).
      destruct Hp' as (ps & i & j & c & p & A1 & A2 & _). destruct (keys_value _ _ A2) as (x & Hx).
      exists [s_ "properties"; n], x. split; [exists l; split; [reflexivity | now constructor]|]. split; [|right; left; eauto].
      econstructor; [exact A1|]. econstructor; [exact Hx|]. constructor.
Qed.

(** * Faults are reported *)

(** If the shape is wrong, that is the only error, and it is at a place where it is wrong; each such place may be the one. *)
Theorem C63_shape_reported re_ok ordered v ref errs path :
  json_wf v -> validate re_ok ordered v ref = Ok errs -> misshapen v path ->
  exists paths, errs = [SErr ref (EJsonSchema paths)] /\ forall p, In p paths <-> misshapen v p.
Proof.
  intros Hw H Hm. destruct (validate_cases _ _ _ _ _ Hw H) as [[-> _] | [Hno _]]; [|now apply Hno in Hm].
  exists (jblame GRAPH v). split; [reflexivity|]. intros p. now apply blamed_iff.
Qed.

(** Otherwise all other faults of the graph, the classes and the embeds are reported, each with its
    reference; if the definition of a property is wrong, one of its faults is reported; and so is
    each property that is called like a registry. *)
Theorem C63_faults_reported re_ok ordered l ref errs :
  json_wf (JObj l) -> validate re_ok ordered (JObj l) ref = Ok errs -> (forall path, ~ misshapen (JObj l) path) ->
  (forall path kind, bad_composite re_ok ordered l path kind -> In (SErr (reference ref path) kind) errs) /\
  (forall i path c ps n p sub kind,
     composite_at l i path c -> In (s_ "properties", JObj ps) c -> In (n, p) ps ->
     bad_definition re_ok ordered (type_name l) true p sub kind ->
     exists e, In e errs /\ se_refs e <> [] /\
       forall r, In r (se_refs e) -> exists sub', bad_definition re_ok ordered (type_name l) true p sub' (se_kind e) /\
         (r = reference ref (path ++ [s_ "properties"; n] ++ sub') \/
          r = reference ref (path ++ [s_ "properties"; n] ++ sub') ++ s_ "/")) /\
  (forall n cn, plural_taken l n cn -> exists cn', In (SErr (reference ref [n]) (EPlural n cn')) errs).
Proof.
  intros Hw H Hno. destruct (validate_cases _ _ _ _ _ Hw H) as [[-> Hne] | [_ (l' & [= <-] & Hs)]].
  - exfalso. destruct (jblame GRAPH (JObj l)) as [|p ps] eqn:E; [congruence|]. apply (Hno p). apply blamed_iff; auto. rewrite E. now left.
  - destruct (all_errors re_ok ordered ref l Hw Hs errs H) as (_ & A & B & C). split; [exact A|]. split; [|exact C].
    intros i path c ps n p sub kind H1 H2 H3 H4. destruct (B i path c ps n p sub kind H1 H2 H3 H4) as (e & He & Hne & Ht).
    exists e. split; [exact He|]. split; [exact Hne|]. intros r Hr. destruct (Ht r Hr) as (sub' & w & D1 & _ & D2). exists sub'. split; [exact D1|].
    rewrite app_assoc, reference_app. destruct D2 as [->|(paths & m & _ & _ & _ & ->)]; auto.
Qed.

(** * References are unambiguous *)

(** Two references to different places differ if no name on the way has a slash. *)
Theorem C63_references_unambiguous ref path path' :
  (forall p, In p (path ++ path') -> ~ In 47%N p) -> reference ref path = reference ref path' -> path = path'.
Proof.
  intros Hs H. unfold reference in H. apply app_inv_head in H. revert path' Hs H.
  induction path as [|k path IH]; intros [|k' path'] Hs H; try discriminate; [reflexivity|]. cbn [map concat] in H.
  rewrite <- !app_assoc in H. apply app_inv_head in H.
  assert (Hk : ~ In 47%N k) by (apply Hs; now left). assert (Hk' : ~ In 47%N k') by (apply Hs; apply in_app_iff; right; now left).
  assert (E : k = k' /\ concat (map (fun p => s_ "/" ++ p) path) = concat (map (fun p => s_ "/" ++ p) path')).
  { clear - H Hk Hk'. revert k' Hk' H. induction k as [|c k IH]; intros [|c' k'] Hk' H; cbn [app] in H.
    - auto.
    - destruct path; [discriminate|]. injection H as <- _. exfalso. apply Hk'. now left.
    - destruct path'; [discriminate|]. injection H as -> _. exfalso. apply Hk. now left.
    - injection H as <- H. destruct (IH (fun h => Hk (or_intror h)) k' (fun h => Hk' (or_intror h)) H) as [-> ->]. auto. }
  destruct E as [<- E]. f_equal. apply IH; [|exact E]. intros p Hp. apply Hs. apply in_app_iff in Hp. destruct Hp as [Hp|Hp]; [right; apply in_app_iff; now left|].
  right. apply in_app_iff. right. now right.
Qed.

(** * Where the references lead nowhere *)

(** A class [Gadget] and a property [gadgets]: the reference is [schema.json#/gadgets]. *)
Definition gadgets : jval :=
  with_properties [plain_class "Gadget" []] [("gadgets", property [("type", txt "boolean")])]%string.
Theorem C63_plural_reference_refuted :
  exists v ref errs e r, json_wf v /\ validate (fun _ => true) true v ref = Ok errs /\ In e errs /\ In r (se_refs e) /\
    forall path w, leads path v w -> r <> reference ref path.
Proof.
  exists gadgets, (s_ "schema.json#"),
    [SErr (s_ "schema.json#/gadgets") (EPlural (s_ "gadgets") (s_ "Gadget"))],
    (SErr (s_ "schema.json#/gadgets") (EPlural (s_ "gadgets") (s_ "Gadget"))), (s_ "schema.json#/gadgets").
  split; [apply wf_parts; vm_compute; reflexivity|]. split; [vm_compute; reflexivity|]. split; [now left|]. split; [now left|].
  intros path w Hl E. change (s_ "schema.json#/gadgets") with (reference (s_ "schema.json#") [s_ "gadgets"]) in E.
  unfold reference in E. apply app_inv_head in E. unfold gadgets, with_properties, obj in Hl.
  inversion Hl as [|k l x path' w' Hin Hl' E1 E2 E3|]; subst; [discriminate E|].
  cbn [map fst snd In] in Hin. repeat destruct Hin as [Hin|Hin]; try contradiction; injection Hin as <- _; discriminate E.
Qed.

(** An array without the definition of its values: the reference is [schema.json#/properties/xs/]. *)
Definition no_values : jval :=
  obj [("name", txt "Some_graph"); ("description", txt "defines a graph."); ("properties", obj [("xs", property [("type", txt "array")])])]%string.
Theorem C63_values_reference_refuted :
  exists v ref errs e r, json_wf v /\ validate (fun _ => true) true v ref = Ok errs /\ In e errs /\ In r (se_refs e) /\
    forall path w, leads path v w -> r <> reference ref path.
Proof.
  exists no_values, (s_ "schema.json#"),
    [SErr (s_ "schema.json#/properties/xs") (ETypeSchema [[]])],
    (SErr (s_ "schema.json#/properties/xs") (ETypeSchema [[]])), (s_ "schema.json#/properties/xs/").
  split; [apply wf_parts; vm_compute; reflexivity|]. split; [vm_compute; reflexivity|]. split; [now left|]. split; [now left|].
  intros path w Hl E. change (s_ "schema.json#/properties/xs/") with (s_ "schema.json#" ++ s_ "/" ++ s_ "properties" ++ s_ "/" ++ s_ "xs" ++ s_ "/") in E.
  unfold reference in E. apply app_inv_head in E. unfold no_values, property, obj in Hl.
  inversion Hl as [|k l x path1 w1 Hin Hl1 E1 E2 E3|]; subst; [discriminate E|]. cbn [map fst snd In] in Hin. cbn [map concat] in E.
  rewrite <- app_assoc in E. apply app_inv_head in E.
  destruct Hin as [Hin|[Hin|[Hin|[]]]]; injection Hin as <- <-; try discriminate E. apply app_inv_head in E.
  inversion Hl1 as [|k l x path2 w2 Hin Hl2 E1 E2 E3|]; subst; [discriminate E|]. cbn [map fst snd In] in Hin. cbn [map concat] in E.
  rewrite <- app_assoc in E. apply app_inv_head in E. destruct Hin as [Hin|[]]; injection Hin as <- <-. apply app_inv_head in E.
  inversion Hl2 as [|k l x path3 w3 Hin Hl3 E1 E2 E3|]; subst; [discriminate E|]. cbn [map fst snd In hd tl] in Hin. cbn [map concat] in E.
  rewrite <- app_assoc in E. change (s_ "/") with (s_ "/" ++ []) in E at 1. apply app_inv_head in E.
  destruct Hin as [Hin|[Hin|[]]]; injection Hin as <- <-; discriminate E.
Qed.

(** * A concrete case *)

Definition faulty : jval :=
  obj [("name", txt "Some_graph"); ("description", txt "defines a graph.");
       ("classes", JArr [plain_class "Gadget" [("id_pattern", txt "["); ("properties", obj [("id", property [("type", txt "boolean")])])];
                         plain_class "Gadget" []]);
       ("embeds", JArr [plain_class "Some_graph" []]);
       ("properties", obj [("limits", property [("type", txt "integer"); ("minimum", JInt 5); ("maximum", JInt 3)]);
                           ("kind", property [("type", txt "array"); ("values", obj [("type", txt "Nothing")])]);
                           ("no_name_", property [("type", txt "string"); ("pattern", JInt 3)]);
                           ("gadgets", property [("type", txt "boolean"); ("format", txt "yes")])])]%string.
Definition brackets (p : str) : bool := negb (str_eqb p (s_ "[")).
Definition faulty_errors : list serr :=
  let at_ p := s_ "schema.json#" ++ s_ p in
  [SErr (at_ "/classes/1/name") (EDuplicateName (s_ "Gadget")); SErr (at_ "/embeds/0/name") (EDuplicateName (s_ "Some_graph"));
   SErr (at_ "/classes/0/id_pattern") EIdPattern; SErr (at_ "/classes/0/properties") EReservedId;
   SErr (at_ "/properties/limits") EMinOverMax; SErr (at_ "/properties/kind/values/type") EInvalidType;
   SErr (at_ "/properties") (EPropertyName (s_ "no_name_")); SErr (at_ "/properties/no_name_") (ETypeSchema [[s_ "pattern"]]);
   SErr (at_ "/properties/gadgets") (EUnexpectedKey (s_ "format")); SErr (at_ "/gadgets") (EPlural (s_ "gadgets") (s_ "Gadget"))]%string.
Example C63_example :
  json_wf faulty /\ validate brackets true faulty (s_ "schema.json#") = Ok faulty_errors /\ (forall path, ~ misshapen faulty path) /\
  flat_map se_refs (filter (fun e => match se_kind e with ETypeSchema _ => true | _ => false end) faulty_errors) =
    [s_ "schema.json#/properties/no_name_/pattern"].
Proof.
  assert (W : json_wf faulty) by (apply wf_parts; vm_compute; reflexivity).
  split; [exact W|]. split; [vm_compute; reflexivity|]. split; [|vm_compute; reflexivity].
  intros path H. apply blamed_iff in H; [|exact W]. vm_compute in H. exact H.
Qed.
(** The faults which they report *)
Example C63_example_faults : exists l, faulty = JObj l /\
  bad_composite brackets true l [s_ "embeds"; s_ "0"; s_ "name"] (EDuplicateName (s_ "Some_graph")) /\
  bad_composite brackets true l [s_ "classes"; s_ "0"; s_ "properties"] EReservedId /\
  fault brackets true l [s_ "properties"; s_ "kind"; s_ "values"; s_ "type"] EInvalidType /\
  plural_taken l (s_ "gadgets") (s_ "Gadget").
Proof.
  eexists. split; [reflexivity|]. set (l := map _ _).
  assert (Hc : exists cs, In (s_ "classes", JArr cs) l /\ length cs = 2 /\ exists c, nth_error cs 0 = Some (JObj c) /\
    In (s_ "name", JStr (s_ "Gadget")) c /\ no_member c "plural" /\ exists ps, In (s_ "properties", JObj ps) c /\ In (s_ "id") (keys ps)).
  { eexists. split; [right; right; left; reflexivity|]. split; [reflexivity|]. eexists. split; [reflexivity|]. split; [now left|]. split.
    - intros H. apply mem_In in H. vm_compute in H. discriminate.
    - eexists. split; [right; right; right; left; reflexivity | now left]. }
  destruct Hc as (cs & Hcs & Hlen & c & H0 & Hname & Hpl & ps & Hps & Hid).
  assert (Hat : composite_at l 1 [s_ "classes"; s_ "0"] c) by (exact (at_class l cs 0 c Hcs H0)).
  split; [|split; [|split]].
  - apply (bad_name brackets true l 3 [s_ "embeds"; s_ "0"] (match plain_class "Some_graph" [] with JObj e => e | _ => [] end) 0 [] l).
    + change 3 with (S (2 + 0)). rewrite <- Hlen. eapply (at_embed l cs _ 0); [now left | right; right; right; left; reflexivity | reflexivity].
    + now left.
    + constructor.
    + now left.
    + lia.
  - eapply (bad_id brackets true l 1); eauto.
  - change [s_ "properties"; s_ "kind"; s_ "values"; s_ "type"] with ([] ++ [s_ "properties"; s_ "kind"] ++ [s_ "values"; s_ "type"]).
    eapply (fault_definition brackets true l 0 [] l); [constructor | right; right; right; right; left; reflexivity | right; left; reflexivity|].
    eapply (bad_values _ _ _ _ _ "array"); [now left | now left | right; right; left; reflexivity|].
    eapply bad_type; [now left|]. intros n [= <-] [H | (i & path & c' & H1 & H2)].
    + apply mem_In in H. vm_compute in H. discriminate.
    + assert (Hnames : In (s_ "Nothing") [s_ "Some_graph"; s_ "Gadget"; s_ "Gadget"; s_ "Some_graph"]); [|apply mem_In in Hnames; vm_compute in Hnames; discriminate].
      destruct H1 as [|cs' i c' G1 G2|cs' es' i c' G0 G1 G2].
      * subst l. cbn [map fst snd In] in H2. repeat destruct H2 as [H2|H2]; try contradiction; injection H2 as H2; subst; try discriminate H2. 
      * subst l. cbn [map fst snd In] in G1. repeat destruct G1 as [G1|G1]; try contradiction; try discriminate G1. injection G1 as <-.
        destruct i as [|[|[|i]]]; try discriminate G2; injection G2 as <-; cbn [In] in H2; repeat destruct H2 as [H2|H2]; try contradiction; discriminate H2.
      * subst l. cbn [map fst snd In] in G1. repeat destruct G1 as [G1|G1]; try contradiction; try discriminate G1. injection G1 as <-.
        destruct i as [|[|i]]; try discriminate G2; injection G2 as <-; cbn [In] in H2; repeat destruct H2 as [H2|H2]; try contradiction; discriminate H2.
  - eexists _, 1, (s_ "0"), c, (s_ "Gadgets"). split; [right; right; right; right; left; reflexivity|]. split; [right; right; right; left; reflexivity|].
    split; [exact Hat|]. split; [|split; [reflexivity | exact Hname]]. exists c. split; [reflexivity|]. right. split; [exact Hpl|]. exists (s_ "Gadget").
    split; [exact Hname | reflexivity].
Qed.
(** A document of the wrong shape: the graph has no name, and the type of a property is a number. *)
Example C63_example_shape :
  let v := obj [("description", txt "defines a graph."); ("properties", obj [("x", obj [("type", JInt 3); ("description", txt "defines.")])])]%string in
  json_wf v /\ misshapen v [] /\ misshapen v [s_ "properties"; s_ "x"; s_ "type"] /\
  validate brackets true v (s_ "schema.json#") = Ok [SErr (s_ "schema.json#") (EJsonSchema [[s_ "properties"; s_ "x"; s_ "type"]; []])].
Proof.
  intros v. assert (W : json_wf v) by (apply wf_parts; vm_compute; reflexivity).
  split; [exact W|]. split; [|split; [|vm_compute; reflexivity]].
  - eapply (missing_member v KGraph [] _ "name"); [constructor | now left|]. intros H. apply mem_In in H. vm_compute in H. discriminate.
  - assert (Hp : place v KProperty ([] ++ [s_ "properties"; s_ "x"]) (obj [("type", JInt 3); ("description", txt "defines.")]%string)).
    { eapply (place_property v KGraph []); [constructor | now left | right; left; reflexivity | now left]. }
    apply (wrong_member v KProperty _ _ "type" (a_text (fun n => exists c, In c n /\ letter c)) (JInt 3) Hp);
      [right; left; reflexivity | now left | intros (s & E & _); discriminate].
Qed.

Print Assumptions C63_errors_partial.
Print Assumptions C63_shape_reported.
Print Assumptions C63_faults_reported.
Print Assumptions C63_references_unambiguous.
Print Assumptions C63_plural_reference_refuted.
Print Assumptions C63_values_reference_refuted.
