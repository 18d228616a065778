(** Theorems about the validation and the parsing of schemas (C24, C31-C35). *)
From Coq Require Import String List Arith NArith ZArith QArith Bool Lia Lqa Permutation Floats.SpecFloat.
From Verif Require Import Base M_Naming M_Schema M_Dec M_Strftime M_Validate S_Conform S_Walk P_Naming S_Validate P_Validate
  P_ValidateType P_ValidateDoc P_Parse P_NoRaise P_ParseInv P_Parsed M_Walk P_Walk.
Import ListNotations.
Open Scope list_scope.
Local Open Scope nat_scope.

(** * C32: parsing fails only with schema errors *)

(** Apart from the exceptional documents of [C32_refuted], [schema_from_mapping] returns
    a schema or raises [SchemaError], for every JSON document. *)
Theorem C32_only_schema_errors_partial re_ok ordered v ref :
  json_wf v -> values_typed v -> graph_not_a_type v -> finite_numbers v -> capital_plurals v ->
  (exists s, schema_from_mapping re_ok ordered v ref = Ok s) \/
  schema_from_mapping re_ok ordered v ref = Raise SchemaErr.
Proof.
  intros Hw Hv Hg Hf Hc. unfold schema_from_mapping.
  destruct (validate_returns re_ok ordered v ref Hw Hv Hc) as ([|e errs] & E); rewrite E; cbn [bind]; [|now right].
  left. apply validate_iff in E; [|exact Hw].
  destruct (schema_of_ok toward_zero re_ok ordered v ref Hw E Hf Hg) as (s & Es & _); [|eauto].
  intros w z _ Ha Hz. now apply int_of_toward.
Qed.

(** Objects with texts as keys *)
Definition obj (l : list (string * jval)) : jval := JObj (map (fun kv => (s_ (fst kv), snd kv)) l).
Definition txt (s : string) : jval := JStr (s_ s).

(** A graph with the given properties *)
Definition with_properties (classes : list jval) (ps : list (string * jval)) : jval :=
  obj [("name", txt "Some_graph"); ("description", txt "defines a graph."); ("classes", JArr classes); ("properties", obj ps)]%string.
Definition property (l : list (string * jval)) : jval :=
  obj (("type"%string, snd (hd (EmptyString, JNull) l)) :: ("description"%string, txt "defines a property.") :: tl l).

(** The values of an array without a type: [KeyError]. *)
Definition untyped_values : jval :=
  with_properties [] [("some_array", property [("type", txt "array"); ("values", obj [])])]%string.
(** The values of an array with a list as type: [TypeError]. *)
Definition list_as_type : jval :=
  with_properties [] [("some_array", property [("type", txt "array"); ("values", obj [("type", JArr [])])])]%string.
(** The graph as a type: [NotImplementedError]. *)
Definition graph_as_type : jval :=
  with_properties [] [("some_property", property [("type", txt "Some_graph")])]%string.
(** Infinite bounds ([Infinity] in JSON): [OverflowError]; [NaN]: [ValueError]. *)
Definition infinite_bound : jval :=
  with_properties [] [("some_property", property [("type", txt "float"); ("maximum", JFloat (S754_infinity false))])]%string.
Definition nan_bound : jval :=
  with_properties [] [("some_property", property [("type", txt "float"); ("maximum", JFloat S754_nan)])]%string.
(** A class of which the plural is irregular: [ValueError] ([ViolationError]). *)
Definition lower_plural : jval :=
  with_properties [obj [("name", txt "Some_matrix"); ("description", txt "defines a class.")]%string]
    [("some_property", property [("type", txt "boolean")])]%string.

(** Decision of the hypotheses for concrete documents *)
Fixpoint parts (v : jval) : list jval :=
  v :: match v with
       | JArr l => flat_map parts l
       | JObj l => flat_map (fun kv => parts (snd kv)) l
       | _ => []
       end.
Lemma part_parts w v : part w v -> In w (parts v).
Proof.
  induction 1 as [|l v Hin H IH|l k v Hin H IH].
  - destruct w; now left.
  - right. apply in_flat_map. eauto.
  - right. apply in_flat_map. exists (k, v). auto.
Qed.
Fixpoint distinct (l : list str) : bool := match l with [] => true | x :: r => negb (mem x r) && distinct r end.
Lemma distinct_NoDup l : distinct l = true -> NoDup l.
Proof.
  induction l as [|x l IH]; cbn [distinct]; [constructor|]. rewrite andb_true_iff, negb_true_iff. intros [H1 H2].
  constructor; auto. now apply mem_not_In.
Qed.
Lemma wf_parts v : forallb (fun w => match w with JObj l => distinct (keys l) | _ => true end) (parts v) = true -> json_wf v.
Proof.
  induction v as [| | | | |l IH|l IH] using jval_ind'; intros H; try constructor.
  - intros v Hv. rewrite Forall_forall in IH. apply IH; [exact Hv|]. cbn [parts forallb] in H.
    apply andb_true_iff in H. destruct H as [_ H]. rewrite forallb_forall in *. intros w Hw. apply H. apply in_flat_map. eauto.
  - cbn [parts forallb] in H. apply andb_true_iff in H. now apply distinct_NoDup.
  - intros k v Hv. rewrite Forall_forall in IH. apply (IH (k, v) Hv). cbn [snd]. cbn [parts forallb] in H.
    apply andb_true_iff in H. destruct H as [_ H]. rewrite forallb_forall in *.
    intros w Hw. apply H. apply in_flat_map. exists (k, v). auto.
Qed.

Theorem C32_refuted : forall v e,
  In (v, e) [(untyped_values, KeyError); (list_as_type, TypeError); (graph_as_type, NotImplementedError);
             (infinite_bound, OverflowError); (nan_bound, ValueError); (lower_plural, ViolationError)] ->
  json_wf v /\ forall re_ok ordered, schema_from_mapping re_ok ordered v (s_ "schema.json#") = Raise e.
Proof.
  intros v e H. cbn [In] in H.
  repeat destruct H as [H | H]; [.. | contradiction]; injection H as <- <-;
    (split; [apply wf_parts; vm_compute; reflexivity | intros re_ok []; vm_compute; reflexivity]).
Qed.

(** * C33: accepted schemas are well-formed *)

(** A document without validation errors is well-formed. *)
Theorem C33_accepted_documents re_ok ordered v ref :
  json_wf v -> validate re_ok ordered v ref = Ok [] -> document re_ok ordered v.
Proof. intros Hw. apply (validate_iff re_ok ordered v ref Hw). Qed.

(** In the parsed schema the names of the graph, the classes and the embeds are
    distinct, there is a composite for each name used as a type, and the references
    are those of the places in the document. *)
Theorem C33_accepted_schemas re_ok ordered v ref s :
  json_wf v -> schema_from_mapping re_ok ordered v ref = Ok s ->
  let g := sc_graph s in
  NoDup (g_name g :: map c_name (g_classes g) ++ map e_name (g_embeds g)) /\ resolved g /\ parsed_refs g.
Proof.
  intros Hw H g. assert (Hd := accepted_describes _ _ _ _ _ Hw H). destruct (accepted_document _ _ _ _ _ Hw H) as [Hdoc _].
  destruct Hd as [Hd _]. split; [|split; [eapply parsed_resolved; eauto | eapply parsed_refs_of; eauto]].
  destruct Hdoc as [l n classes embeds cns ens Hkeys Horder Hname Hcap Hdesc Hcpp Hgo Hpy Hcl Hem Hcns Hens Hnd Hcok Heok Hprops Hpl].
  destruct Hd as (l' & cs & es & [= <-] & A1 & A2 & A3 & A4 & A5 & A6 & A7 & A8 & A9 & A10). fold g in A1, A6, A7, A8, A9.
  assert (Hw' := Hw). apply wf_obj in Hw'. destruct Hw' as [Hn Hwl].
  assert (E1 := unique l Hn _ _ _ A1 Hname). injection E1 as ->.
  assert (E2 := list_under_unique l _ _ _ Hn A4 Hcl). assert (E3 := list_under_unique l _ _ _ Hn A5 Hem). subst cs es.
  assert (N : forall {A} (f : A -> str) (P : nat -> jval -> A -> Prop) xs ys, (forall v, In v xs -> json_wf v) ->
    length xs = length ys -> (forall i y x, nth_error xs i = Some x -> nth_error ys i = Some y -> P i x y) ->
    (forall i x y, P i x y -> name_of x (f y)) -> Forall2 name_of xs (map f ys)).
  { intros A f P xs ys _ Hl HP Hf. assert (HP' : forall i y x, nth_error xs i = Some x -> nth_error ys i = Some y -> name_of x (f y)) by eauto.
    clear HP. revert ys Hl HP'. induction xs as [|x xs IH]; intros [|y ys] Hl HP; try discriminate; constructor.
    - exact (HP 0 y x eq_refl eq_refl).
    - apply IH; [now injection Hl|]. intros i. exact (HP (S i)). }
  assert (W1 := elements_wf l _ _ Hw Hcl). assert (W2 := elements_wf l _ _ Hw Hem).
  rewrite (Forall2_name_unique classes W1 (map c_name (g_classes g)) cns), (Forall2_name_unique embeds W2 (map e_name (g_embeds g)) ens);
    [exact Hnd | | exact Hens | | exact Hcns].
  - refine (N _ e_name _ _ _ W2 A7 A9 _). intros i x y (m & -> & Hm & _). exists m. auto.
  - refine (N _ c_name _ _ _ W1 A6 A8 _). intros i x y (m & -> & Hm & _). exists m. auto.
Qed.

(** The stated ranges of sizes, integers and finite numbers are satisfiable, except
    for the integers strictly between two consecutive ones. *)
Theorem C33_ranges_satisfiable_partial re_ok ordered l ref m :
  json_wf (JObj l) -> validate re_ok ordered (JObj l) ref = Ok [] -> defines l m ->
  (of_type m "array" -> exists n : nat,
     (forall a, In (s_ "minimum_size", JInt a) m -> (a <= Z.of_nat n)%Z) /\
     (forall b, In (s_ "maximum_size", JInt b) m -> (Z.of_nat n <= b)%Z)) /\
  (of_type m "float" -> finite_numbers (JObj l) -> exists q, within m (Fin q)) /\
  (of_type m "integer" ->
   (forall a b, In (s_ "minimum", JInt a) m -> In (s_ "maximum", JInt b) m -> b = (a + 1)%Z ->
      ~ (In (s_ "exclusive_minimum", JBool true) m /\ In (s_ "exclusive_maximum", JBool true) m)) ->
   exists z, within m (Fin (inject_Z z))).
Proof.
  intros Hw H Hdef. apply validate_iff in H; [|exact Hw].
  destruct (defined_ok _ _ _ _ Hw H Hdef) as (Wm & Pm & names & top & Hns & T).
  assert (Hn := Wm). apply wf_obj in Hn. destruct Hn as [Hn Hwm].
  assert (U : forall t t' : string, In (s_ "type", JStr (s_ t)) m -> In (s_ "type", JStr (s_ t')) m -> s_ t = s_ t').
  { intros t t' H1 H2. assert (E := unique m Hn _ _ _ H1 H2). now injection E. }
  remember (JObj m) as M eqn:EM. unfold of_type.
  destruct T as [u l0 H1 H2 H3 H4 | u l0 H1 H2 H3 H4 H5 H6 H7 | u l0 H1 H2 H3 H4 H5 |
        u l0 H1 H2 H3 H4 H5 | l0 v H1 H2 H3 H4 H5 H6 H7 H8 | l0 v H1 H2 H3 H4 H5 | n l0 H1 H2 H3]; injection EM as E0; subst l0.
  - repeat split; intros Ht; exfalso; cbn [In] in H1; repeat destruct H1 as [<- | H1]; try contradiction; assert (E := U _ _ H2 Ht); discriminate E.
  - assert (Num : maybe m "minimum" a_number /\ maybe m "maximum" a_number).
    { destruct H1 as [(_ & A & B) | (_ & A & B)]; [|auto].
      split; intros w Hw'; [destruct (A w Hw') as (z & ->) | destruct (B w Hw') as (z & ->)]; left; eauto. }
    split; [|split].
    + intros Ht. exfalso. destruct H1 as [(-> & _) | (-> & _)]; assert (E := U _ _ H2 Ht); discriminate E.
    + intros _ Hf. apply range_rational; try tauto. intros k v Hv Ha. destruct Ha as [(z & ->) | (f & ->)]; [eexists; reflexivity|].
      apply Hf. clear - Pm Hv. remember (JObj m) as M. remember (JObj l) as L. clear HeqL. induction Pm as [|? ? ? ? IH|? ? ? ? ? IH].
      * subst. eapply part_object; [exact Hv | constructor].
      * eapply part_array; eauto.
      * eapply part_object; eauto.
    + intros Ht Hex. destruct H1 as [(-> & A & B) | (-> & _)]; [now apply range_integer|]. exfalso. assert (E := U _ _ H2 Ht). discriminate E.
  - repeat split; intros Ht; exfalso; cbn [In] in H1; repeat destruct H1 as [<- | H1]; try contradiction; assert (E := U _ _ H2 Ht); discriminate E.
  - repeat split; intros Ht; exfalso; cbn [In] in H5; repeat destruct H5 as [<- | H5]; try contradiction; assert (E := U _ _ H1 Ht); discriminate E.
  - split; [intros _; now apply sizes_some|]. split; intros Ht; exfalso; assert (E := U _ _ H1 Ht); discriminate E.
  - repeat split; intros Ht; exfalso; assert (E := U _ _ H1 Ht); discriminate E.
  - (* the composites are not named like the types *)
    assert (A : forall t, In (s_ t) NONCOMPOSITE -> ~ In (s_ "type", JStr (s_ t)) m).
    { intros t Ht Hin. assert (E := unique m Hn _ _ _ H2 Hin). injection E as ->. exact (Hns _ H1 Ht). }
    repeat split; intros Ht; exfalso; (eapply A; [|exact Ht]); rewrite NONCOMPOSITE_eq; apply in_map; cbn; tauto.
Qed.

(** No integer is between 3 and 4, but the validation accepts this range. *)
Definition empty_range : jval :=
  with_properties [] [("some_integer", property [("type", txt "integer"); ("minimum", JInt 3); ("exclusive_minimum", JBool true);
     ("maximum", JInt 4); ("exclusive_maximum", JBool true)])]%string.
Theorem C33_range_refuted :
  json_wf empty_range /\
  (forall re_ok ordered ref, validate re_ok ordered empty_range ref = Ok []) /\
  exists l m, empty_range = JObj l /\ defines l m /\ of_type m "integer" /\ forall z, ~ within m (Fin (inject_Z z)).
Proof.
  split; [apply wf_parts; vm_compute; reflexivity|]. split; [intros re_ok [] ref; reflexivity|].
  eexists _, _. split; [reflexivity|]. split; [|split].
  - eapply defines_property; [apply the_graph | cbn; do 3 right; left; reflexivity | left; reflexivity].
  - left. reflexivity.
  - intros z [H1 H2].
    destruct (H1 (JInt 3)) as [A | [A _]]; [cbn; auto | | apply A; cbn; auto].
    destruct (H2 (JInt 4)) as [B | [B _]]; [cbn; auto 10 | | apply B; cbn; auto 10].
    cbn [value below] in A, B. rewrite <- Zlt_Qlt in A, B. lia.
Qed.
(** [NaN] passes the comparison of the bounds. *)
Theorem C33_nan_refuted :
  json_wf nan_bound /\
  (forall re_ok ordered ref, validate re_ok ordered nan_bound ref = Ok []) /\
  exists l m, nan_bound = JObj l /\ defines l m /\ of_type m "float" /\ forall x, ~ within m x.
Proof.
  split; [apply wf_parts; vm_compute; reflexivity|]. split; [intros re_ok [] ref; reflexivity|].
  eexists _, _. split; [reflexivity|]. split; [|split].
  - eapply defines_property; [apply the_graph | cbn; do 3 right; left; reflexivity | left; reflexivity].
  - left. reflexivity.
  - intros x [_ H2]. destruct (H2 (JFloat S754_nan)) as [B | [_ B]]; [cbn; auto 10 | |]; destruct x; exact B.
Qed.
(** The names of properties may end with a newline. *)
Definition newline_name : jval :=
  with_properties [] [(String.append "some_name" (String (Ascii.ascii_of_nat 10) EmptyString), property [("type", txt "boolean")])]%string.
Theorem C33_name_refuted :
  json_wf newline_name /\
  (forall re_ok ordered ref, validate re_ok ordered newline_name ref = Ok []) /\
  exists l ps k p, newline_name = JObj l /\ In (s_ "properties", JObj ps) l /\ In (k, p) ps /\ ~ identifier letter k.
Proof.
  split; [apply wf_parts; vm_compute; reflexivity|]. split; [intros re_ok [] ref; reflexivity|].
  eexists _, _, _, _. split; [reflexivity|]. split; [cbn; do 3 right; left; reflexivity|]. split; [left; reflexivity|].
  intros (c & r & E & _ & H & _). injection E as <- <-. specialize (H 10%N). assert (A : word 10%N) by (apply H; cbn; tauto).
  unfold word, letter, capital, small, digit in A. lia.
Qed.

(** * C34: well-formed schemas are accepted *)

(** A well-formed document passes the validation and, if no type is the graph and all
    numbers are finite, it is parsed. *)
Theorem C34_accepts_partial re_ok ordered v ref :
  json_wf v -> document re_ok ordered v -> capital_plurals v ->
  validate re_ok ordered v ref = Ok [] /\
  (graph_not_a_type v -> finite_numbers v -> exists s, schema_from_mapping re_ok ordered v ref = Ok s).
Proof.
  intros Hw Hd Hc. assert (E : validate re_ok ordered v ref = Ok []) by (apply validate_iff; assumption).
  split; [exact E|]. intros Hg Hf. unfold schema_from_mapping. rewrite E. cbn [bind].
  destruct (schema_of_ok toward_zero re_ok ordered v ref Hw Hd Hf Hg) as (s & Es & _); [|eauto].
  intros w z _ Ha Hz. now apply int_of_toward.
Qed.

(** The plural of [Some_matrix] is irregular; no rule forbids the document, but the
    validation raises. *)
Theorem C34_refuted :
  json_wf lower_plural /\ (forall re_ok ordered, document re_ok ordered lower_plural) /\
  forall re_ok ordered ref, validate re_ok ordered lower_plural ref = Raise ViolationError.
Proof.
  assert (W : json_wf lower_plural) by (apply wf_parts; vm_compute; reflexivity).
  split; [exact W|]. split; [|intros re_ok [] ref; reflexivity]. intros re_ok ordered.
  assert (G : jvalid GRAPH lower_plural = true) by reflexivity. apply j_graph in G; [|exact W].
  destruct G as (l & E & S1 & S2 & S3 & S4 & S5 & S6 & S7 & S8 & S9).
  assert (Hl : l = map (fun kv => (s_ (fst kv), snd kv))
    [("name", txt "Some_graph"); ("description", txt "defines a graph.");
     ("classes", JArr [obj [("name", txt "Some_matrix"); ("description", txt "defines a class.")]]);
     ("properties", obj [("some_property", property [("type", txt "boolean")])])]%string) by (injection E as <-; reflexivity).
  set (c := obj [("name", txt "Some_matrix"); ("description", txt "defines a class.")]%string) in *.
  assert (Hn := W). rewrite E in Hn. assert (W' := Hn). apply wf_obj in Hn. destruct Hn as [Hn Hw].
  assert (Hc : list_under l "classes" [c]) by (left; subst l; cbn; auto).
  assert (N : forall n, In n [s_ "Some_graph"; s_ "Some_matrix"] -> ~ In n NONCOMPOSITE).
  { intros n [<- | [<- | []]]; apply mem_not_In; reflexivity. }
  rewrite E. apply (document_of re_ok ordered l (s_ "Some_graph") [c] [] [s_ "Some_matrix"] []); auto.
  - intros _. subst l. eexists _, _, _. reflexivity.
  - subst l. now left.
  - exists 83%N, (s_ "ome_graph"). split; [reflexivity|]. unfold capital. lia.
  - right. split; [|reflexivity]. apply no_member_lookup. subst l. reflexivity.
  - constructor; [|constructor]. eexists. split; [reflexivity|]. cbn. auto.
  - repeat constructor; cbn; intuition discriminate.
  - intros x [<- | []]. apply (class_iff re_ok ordered _ N c [] []); [apply wf_parts; reflexivity|].
    split; [reflexivity|]. split; reflexivity.
  - contradiction.
  - apply (properties_iff re_ok ordered _ N l [] []); [exact W'|]. split; [|contradiction]. split; [exact S9|].
    subst l. destruct ordered; reflexivity.
  - intros ps x p Hps [<- | []] Hp. subst l. cbn in Hps. repeat destruct Hps as [Hps | Hps]; try discriminate; [|contradiction].
    injection Hps as <-. destruct Hp as (m & Em & Hp). injection Em as <-. destruct Hp as [Hp | (_ & n & Hp & ->)].
    + cbn in Hp. repeat destruct Hp as [Hp | Hp]; try discriminate. contradiction.
    + cbn in Hp. repeat destruct Hp as [Hp | Hp]; try discriminate; [|contradiction]. injection Hp as <-.
      intros H. vm_compute in H. destruct H as [H | []]. discriminate.
Qed.

(** * C35: the parsed schema says what the document says *)

(** The schema returned for a document is the one which the document describes, with
    the bounds rounded toward zero; if all numbers are integers, it is so exactly. *)
Theorem C35_described re_ok ordered v ref s :
  json_wf v -> schema_from_mapping re_ok ordered v ref = Ok s -> describes_schema toward_zero ordered ref v s.
Proof. apply accepted_describes. Qed.
Theorem C35_described_exactly_partial re_ok ordered v ref s :
  json_wf v -> integral_numbers v -> schema_from_mapping re_ok ordered v ref = Ok s ->
  describes_schema exact ordered ref v s.
Proof. apply accepted_exact. Qed.

(** A minimum of 0.5 becomes 0. *)
Definition half_bound : jval :=
  with_properties [] [("some_float", property [("type", txt "float"); ("minimum", JFloat (S754_finite false 1 (-1)))])]%string.
Lemma float_described num cns ens v b :
  describes num cns ens v (TFloat b) -> exists l, v = JObj l /\ bounds_described num l b.
Proof. intros H. inversion H; subst. eauto. Qed.
Theorem C35_refuted :
  json_wf half_bound /\
  forall re_ok ordered ref, exists s, schema_from_mapping re_ok ordered half_bound ref = Ok s /\
    ~ describes_schema exact ordered ref half_bound s.
Proof.
  split; [apply wf_parts; vm_compute; reflexivity|]. intros re_ok ordered ref.
  eexists. split; [destruct ordered; reflexivity|]. intros [(l & cs & es & E & _ & _ & _ & _ & _ & _ & _ & _ & _ & H) _].
  injection E as <-. cbn [sc_graph g_props] in H. destruct H as [[_ H] | (ms & qs & Hms & Hperm & _ & HF)]; [discriminate|].
  cbn in Hms. repeat destruct Hms as [Hms | Hms]; try discriminate; [|contradiction]. injection Hms as <-.
  apply Permutation_length_1_inv in Hperm. subst qs. inversion HF as [|? ? ? ? Hp _]; subst. clear HF.
  destruct Hp as (m & Em & _ & _ & _ & _ & _ & Ht). cbn [snd p_type] in *. injection Em as <-.
  apply float_described in Ht. destruct Ht as (l & El & B). injection El as <-. destruct B as (B & _). cbn [b_min] in B.
  destruct B as [(w & Hw & x & Ex & Hx) | [_ B]]; [|discriminate].
  cbn in Hw. repeat destruct Hw as [Hw | Hw]; try discriminate; [|contradiction]. injection Hw as <-. injection Ex as <-.
  cbn in Hx. discriminate Hx.
Qed.

(** * C24: no two pieces of data share a JSON key *)

(** If no property states a JSON name, the JSON keys of the properties of a composite
    are distinct, and those of the graph differ from the keys of the registries. *)
Theorem C24_json_keys_distinct_partial re_ok ordered l ref s :
  json_wf (JObj l) -> schema_from_mapping re_ok ordered (JObj l) ref = Ok s ->
  (forall c ps k m, composite_in l c -> In (s_ "properties", JObj ps) c -> In (k, JObj m) ps -> no_member m "json") ->
  let g := sc_graph s in
  (forall ps, In ps (composites g) -> NoDup (map p_json ps)) /\
  (forall p c, In p (g_props g) -> In c (g_classes g) -> p_json p <> lower (c_plural c)).
Proof.
  intros Hw H Hno g. assert (Hd := accepted_describes _ _ _ _ _ Hw H). destruct (accepted_document _ _ _ _ _ Hw H) as [Hdoc _].
  destruct Hd as [Hd _]. fold g in Hd.
  assert (J : forall r ps c, composite_in l c ->
    describes_properties toward_zero ordered (map c_name (g_classes g)) (map e_name (g_embeds g)) r c ps ->
    forall p, In p ps -> p_json p = p_name p).
  { intros r ps c Hc Hps p Hp. destruct (describes_props_In _ _ _ _ _ _ _ _ Hps Hp) as (ms & k & m & Hms & Hin & m' & E & En & _ & _ & Hj & _).
    cbn [fst snd] in *. subst m. rewrite En. destruct Hj as [(v & Hv & _) | [_ Hj]]; [|exact Hj].
    exfalso. apply (Hno c ms k m' Hc Hms Hin). now apply (in_map fst) in Hv. }
  split.
  - intros ps Hps. destruct (composites_composite _ _ Hps) as (r & Hc).
    destruct (composite_described _ _ _ _ _ _ _ Hw Hd Hc) as (l' & c & E & Hci & Wc & Hp). injection E as <-.
    rewrite (map_ext_in p_json p_name); [eapply describes_props_names; eauto | eapply J; eauto].
  - intros p c Hp Hc E. assert (Hd' := Hd).
    destruct Hd' as (l' & classes & embeds & E' & A1 & A2 & A3 & A4 & A5 & A6 & A7 & A8 & A9 & A10). injection E' as <-.
    rewrite (J _ _ l (the_graph l) A10 p Hp) in E.
    destruct (describes_props_In _ _ _ _ _ _ _ _ A10 Hp) as (ms & k & m & Hms & Hin & m' & _ & En & _). cbn [fst] in En.
    destruct (all_nth _ _ _ A6 A8 c Hc) as (i & d & Hdi & _ & fs & -> & _ & _ & Hpl & _). apply nth_error_In in Hdi.
    inversion Hdoc as [l' n cls' embeds' cns ens Hkeys Horder Hname Hcap Hdesc Hcpp Hgo Hpy Hcl Hem Hcns Hens Hnd Hcok Heok Hprops Hclear El]; subst l'.
    assert (Hn := Hw). apply wf_obj in Hn. destruct Hn as [Hn _].
    assert (E2 := list_under_unique l _ _ _ Hn A4 Hcl). subst cls'.
    apply (Hclear _ _ _ Hms Hdi Hpl). rewrite <- E, En. now apply (in_map fst) in Hin.
Qed.

Definition plain_class (name : string) (more : list (string * jval)) : jval :=
  obj (("name", txt name) :: ("description", txt "defines a class.") :: more)%string.
(** Two properties with the same JSON name *)
Definition same_json : jval :=
  with_properties [] [("x", property [("type", txt "boolean"); ("json", txt "z")]);
                      ("y", property [("type", txt "boolean"); ("json", txt "z")])]%string.
(** A property of the graph with the JSON name of a registry *)
Definition registry_json : jval :=
  with_properties [plain_class "Some_class" []]
    [("x", property [("type", txt "boolean"); ("json", txt "some_classes")])]%string.
(** Two classes with the same registry *)
Definition same_registry : jval :=
  with_properties [plain_class "Some_class" [("plural", txt "Objects")]%string; plain_class "Other_class" [("plural", txt "Objects")]%string] [].

Theorem C24_properties_refuted :
  json_wf same_json /\ forall re_ok ordered ref, exists s ps,
    schema_from_mapping re_ok ordered same_json ref = Ok s /\ In ps (composites (sc_graph s)) /\ ~ NoDup (map p_json ps).
Proof.
  split; [apply wf_parts; vm_compute; reflexivity|]. intros re_ok ordered ref. eexists _, _.
  split; [destruct ordered; reflexivity|]. split; [left; reflexivity|]. intros H. inversion H as [|? ? Hx _]. apply Hx. now left.
Qed.
Theorem C24_registry_refuted :
  json_wf registry_json /\ forall re_ok ordered ref, exists s p c,
    schema_from_mapping re_ok ordered registry_json ref = Ok s /\ In p (g_props (sc_graph s)) /\
    In c (g_classes (sc_graph s)) /\ p_json p = lower (c_plural c).
Proof.
  split; [apply wf_parts; vm_compute; reflexivity|]. intros re_ok ordered ref. eexists _, _, _.
  split; [destruct ordered; reflexivity|]. split; [left; reflexivity|]. split; [left; reflexivity | reflexivity].
Qed.
Theorem C24_registries_refuted :
  json_wf same_registry /\ forall re_ok ordered ref, exists s,
    schema_from_mapping re_ok ordered same_registry ref = Ok s /\ ~ NoDup (map c_plural (g_classes (sc_graph s))).
Proof.
  split; [apply wf_parts; vm_compute; reflexivity|]. intros re_ok ordered ref. eexists.
  split; [destruct ordered; reflexivity|]. intros H. inversion H as [|? ? Hx _]. apply Hx. now left.
Qed.

(** * C31: of the schema parser's graphs no type is yielded twice *)
Theorem C31_parsed_once re_ok ordered v ref s :
  json_wf v -> schema_from_mapping re_ok ordered v ref = Ok s -> NoDup (map snd (iterate_over_types (sc_graph s))).
Proof. intros Hw H. apply iterate_refs. apply (C33_accepted_schemas _ _ _ _ _ Hw H). Qed.

(** * A document to which all theorems apply *)

Definition demo : jval :=
  obj [("name", txt "Some_graph"); ("description", txt "defines a graph.");
       ("cpp", obj [("namespace", txt "some::graph"); ("path_as", txt "boost::filesystem::path");
                    ("optional_as", txt "std::optional"); ("datetime_library", txt "ctime")]);
       ("go", obj [("package", txt "somegraph")]);
       ("py", obj [("module_name", txt "some.graph"); ("path_as", txt "str"); ("timezone_as", txt "str"); ("indention", txt "  ")]);
       ("classes", JArr [
          plain_class "Person" [("id_pattern", txt "^[a-z]+$");
             ("properties", obj [("age", property [("type", txt "integer"); ("minimum", JInt 0); ("optional", JBool true)]);
                                 ("home", property [("type", txt "Address")]);
                                 ("friends", property [("type", txt "array"); ("minimum_size", JInt 1);
                                                       ("values", obj [("type", txt "Person")])])])];
          plain_class "Company" [("plural", txt "Firms")]]);
       ("embeds", JArr [plain_class "Address"
             [("properties", obj [("street", property [("type", txt "string"); ("pattern", txt "^[A-Z]"); ("json", txt "s")])])]]);
       ("properties", obj [("ratio", property [("type", txt "float"); ("minimum", JFloat (S754_finite false 1 1));
                                              ("exclusive_minimum", JBool true); ("maximum", JInt 7)]);
                           ("born", property [("type", txt "map"); ("values", obj [("type", txt "date"); ("format", txt "%d.%m.%Y")])])])]%string.

Lemma demo_hypotheses :
  json_wf demo /\ values_typed demo /\ graph_not_a_type demo /\ finite_numbers demo /\ integral_numbers demo /\ capital_plurals demo.
Proof.
  split; [apply wf_parts; vm_compute; reflexivity|]. split; [|split; [|split; [|split]]].
  - intros l m Hp _ Hin. apply part_parts in Hp. cbn in Hp.
    repeat destruct Hp as [Hp | Hp]; try discriminate; try contradiction; injection Hp as <-;
      cbn in Hin; repeat destruct Hin as [Hin | Hin]; try discriminate; try contradiction; injection Hin as <-; eexists; now left.
  - intros n l (k & E & Hn) Hp Hin. injection E as <-. cbn in Hn. repeat destruct Hn as [Hn | Hn]; try discriminate; try contradiction.
    injection Hn as <-. apply part_parts in Hp. cbn in Hp.
    repeat destruct Hp as [Hp | Hp]; try discriminate; try contradiction; injection Hp as <-;
      cbn in Hin; repeat destruct Hin as [Hin | Hin]; try discriminate; contradiction.
  - intros f Hp. apply part_parts in Hp. cbn in Hp. repeat destruct Hp as [Hp | Hp]; try discriminate; try contradiction.
    injection Hp as <-. eexists. reflexivity.
  - intros f Hp. apply part_parts in Hp. cbn in Hp. repeat destruct Hp as [Hp | Hp]; try discriminate; try contradiction.
    injection Hp as <-. exists 2%Z. vm_compute. reflexivity.
  - intros l cs c p E Hcs Hc (m & -> & Hp). injection E as <-. cbn in Hcs. repeat destruct Hcs as [Hcs | Hcs]; try discriminate; try contradiction.
    injection Hcs as <-. cbn in Hc. repeat destruct Hc as [Hc | Hc]; try contradiction; injection Hc as <-.
    + destruct Hp as [Hp | (_ & n & Hp & ->)]; cbn in Hp; repeat destruct Hp as [Hp | Hp]; try discriminate; try contradiction.
      injection Hp as <-. eexists _, _. split; [vm_compute; reflexivity|]. unfold capital. lia.
    + destruct Hp as [Hp | (Hno & _)]; [|exfalso; apply Hno; cbn; auto].
      cbn in Hp; repeat destruct Hp as [Hp | Hp]; try discriminate; try contradiction.
      injection Hp as <-. eexists _, _. split; [vm_compute; reflexivity|]. unfold capital. lia.
Qed.

Example demo_accepted re_ok ordered ref : re_ok (s_ "^[a-z]+$") = true -> re_ok (s_ "^[A-Z]") = true ->
  document re_ok ordered demo /\ validate re_ok ordered demo ref = Ok [] /\
  exists s, schema_from_mapping re_ok ordered demo ref = Ok s /\ describes_schema exact ordered ref demo s.
Proof.
  intros R1 R2. destruct demo_hypotheses as (Hw & Hv & Hg & Hf & Hi & Hc).
  assert (E : validate re_ok ordered demo ref = Ok []).
  { vm_compute in R1, R2. destruct ordered; vm_compute; rewrite ?R1, ?R2; reflexivity. }
  assert (Hd := C33_accepted_documents re_ok ordered demo ref Hw E). split; [exact Hd|]. split; [exact E|].
  destruct (proj2 (C34_accepts_partial re_ok ordered demo ref Hw Hd Hc) Hg Hf) as (s & Hs). exists s. split; [exact Hs|].
  eapply C35_described_exactly_partial; eauto.
Qed.
(** Documents which are rejected *)
Example demo_rejected :
  schema_from_mapping (fun _ => true) true (with_properties [] [("x", property [("type", txt "boat")])]%string) [] = Raise SchemaErr /\
  schema_from_mapping (fun _ => true) true (with_properties [plain_class "A" []; plain_class "A" []] []) [] = Raise SchemaErr /\
  schema_from_mapping (fun _ => true) true (with_properties [plain_class "A" []] [("as", property [("type", txt "A")])]%string) [] = Raise SchemaErr.
Proof. repeat split; vm_compute; reflexivity. Qed.

Print Assumptions C32_only_schema_errors_partial.
Print Assumptions C32_refuted.
Print Assumptions C33_accepted_documents.
Print Assumptions C33_accepted_schemas.
Print Assumptions C33_ranges_satisfiable_partial.
Print Assumptions C33_range_refuted.
Print Assumptions C33_nan_refuted.
Print Assumptions C33_name_refuted.
Print Assumptions C34_accepts_partial.
Print Assumptions C34_refuted.
Print Assumptions C35_described.
Print Assumptions C35_described_exactly_partial.
Print Assumptions C35_refuted.
Print Assumptions C24_json_keys_distinct_partial.
Print Assumptions C24_properties_refuted.
Print Assumptions C24_registry_refuted.
Print Assumptions C24_registries_refuted.
Print Assumptions C31_parsed_once.
