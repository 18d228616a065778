(** The theorems about the generated code for documents which pass the validations:
    the hypotheses about the names are established by them (C03-C05, C09, C16-C19). *)
From Coq Require Import String List Arith NArith ZArith Bool Lia Floats.SpecFloat.
From Verif Require Import Base M_Naming M_Errors M_Dec M_Schema M_Strftime M_Validate M_LangValid M_PyGen M_GoGen M_CppGen
  S_Conform S_Common S_PyGen S_PySer S_GoGen S_CppGen S_Strftime S_Validate S_Walk S_LangValid
  P_Common P_Validate P_NoRaise P_ParseInv P_Parsed P_LangValid T_Validate T_LangValid T_PyGen T_GoGen T_CppGen.
Import ListNotations.
Open Scope list_scope.
Local Open Scope nat_scope.

(** A well-formed document from which the schema [s] is read. *)
Definition document_of (s : schema) (v : jval) : Prop :=
  json_wf v /\ exists re_ok ordered ref, schema_from_mapping re_ok ordered v ref = Ok s.

(** The document, which is an object, states no JSON names of properties. *)
Definition no_json_names (v : jval) : Prop :=
  forall l c ps k m, v = JObj l -> composite_in l c -> In (s_ "properties", JObj ps) c -> In (k, JObj m) ps -> no_member m "json".

(** The names of the properties are in lower case. *)
Definition lower_properties (g : graph) : Prop :=
  forall ps p, In ps (composites g) -> In p ps -> lower (p_name p) = p_name p.

Lemma graph_plurals v s c : document_of s v -> capital_plurals v -> In c (g_classes (sc_graph s)) -> S_Validate.starts capital (c_plural c).
Proof.
  intros (Hw & re_ok & ordered & ref & H) Hcap Hc. assert (Hd := accepted_describes _ _ _ _ _ Hw H). destruct Hd as [Hd _].
  destruct Hd as (l & classes & embeds & -> & A1 & A2 & A3 & A4 & A5 & A6 & A7 & A8 & A9 & A10).
  destruct (all_nth _ _ _ A6 A8 c Hc) as (i & d & Hdi & _ & fs & -> & _ & _ & Hpl & _). apply nth_error_In in Hdi.
  destruct A4 as [A4 | [_ ->]]; [|contradiction]. eapply Hcap; eauto.
Qed.

Lemma key_of_capital p : S_Validate.starts capital p -> json_plural p = Ok (lower p).
Proof. intros H. unfold json_plural. rewrite (proj2 (initial_ok p) H). reflexivity. Qed.

Lemma keys_lower v s (key : str -> str) : document_of s v -> capital_plurals v ->
  (forall p, json_plural p = Ok (lower p) -> key p = lower p) ->
  map (fun c => key (c_plural c)) (g_classes (sc_graph s)) = map lower (map c_plural (g_classes (sc_graph s))).
Proof.
  intros Hd Hcap K. rewrite map_map. apply map_ext_in. intros c Hc. apply K, key_of_capital. eapply graph_plurals; eauto.
Qed.

Lemma usable_lower keywords names : usable keywords lowered names -> NoDup (map lower names).
Proof.
  intros (ids & H & N & _). replace (map lower names) with ids; [exact N|].
  clear N. induction H as [|n i names ids [_ ->] _ IH]; cbn; congruence.
Qed.
Lemma usable_part keywords conv a b : usable keywords conv (a ++ b) -> usable keywords conv a /\ usable keywords conv b.
Proof.
  intros (ids & H & N & K). apply Forall2_app_inv_l in H. destruct H as (i1 & i2 & H1 & H2 & ->).
  apply NoDup_app_parts in N. destruct N as (N1 & N2 & _).
  split; [exists i1 | exists i2]; (split; [assumption|]; split; [assumption|]; intros i Hi; apply K, in_or_app; auto).
Qed.
Lemma fields_of_composites keywords (field : str -> str -> Prop) own g ps :
  fields_usable keywords field own g -> In ps (composites g) -> usable keywords field (map p_name ps).
Proof.
  intros (A & B & C) Hps. unfold composites in Hps. rewrite !in_app_iff in Hps. destruct Hps as [Hps | [Hps | [<- | []]]].
  - apply in_map_iff in Hps. destruct Hps as (c & <- & Hc). now apply A.
  - apply in_map_iff in Hps. destruct Hps as (e & <- & He). now apply B.
  - now apply usable_part in C.
Qed.

(** * Python *)

Lemma attr_lower n : attr n = lower n.
Proof. unfold attr, as_attribute. destruct n; reflexivity. Qed.

(** The names are not confused in the generated Python code. *)
Theorem C36_names_not_confused v s :
  document_of s v -> capital_plurals v -> py_validate (sc_graph s) = Ok [] ->
  attrs_distinct (sc_graph s) /\ registries_distinct (sc_graph s) /\ resolved (sc_graph s).
Proof.
  intros Hd Hcap Hp. assert (Hd' := Hd). destruct Hd' as (Hw & re_ok & ordered & ref & H).
  destruct (C33_accepted_schemas _ _ _ _ _ Hw H) as (Hn & Hr & _).
  apply C36_no_errors_partial in Hp. destruct Hp as (_ & _ & Hf). split; [|split; [|exact Hr]].
  - intros ps Hps. rewrite (map_ext _ (fun p => lower (p_name p))) by (intros; apply attr_lower).
    rewrite <- map_map. eapply usable_lower. eapply fields_of_composites; eauto.
  - inversion Hn as [|? ? _ Hn']; subst. apply NoDup_app_parts in Hn'. destruct Hn' as (Hc & _ & _).
    destruct Hf as (_ & _ & Hg). apply usable_part in Hg. destruct Hg as [_ Hg]. apply usable_lower in Hg.
    split; [exact Hc|]. split.
    + rewrite (map_ext _ (fun c => lower (c_plural c))) by (intros; apply attr_lower). rewrite <- map_map. exact Hg.
    + unfold py_key. rewrite (keys_lower v s registry_key Hd Hcap); [exact Hg|]. intros p E. unfold registry_key. now rewrite E.
Qed.

Theorem C03_python_accepted_partial v s :
  document_of s v -> capital_plurals v -> py_validate (sc_graph s) = Ok [] ->
  forall X S w ref (es : errs) pg es', json_wf w -> (0 < py_cap es)%Z -> py_values es = [] ->
  graph_from X S (sc_graph s) w ref es = Ok (Some pg, es') ->
  es' = es /\ graph_sat X (sc_graph s) (py_scalar X S (fun _ => True)) pg /\
  exists l, w = JObj l /\ graph_rep X S (sc_graph s) l pg.
Proof.
  intros Hd Hcap Hp. destruct (C36_names_not_confused v s Hd Hcap Hp) as (Ha & Hr & _).
  intros. eapply C03_python_parse_sound_partial; eauto.
Qed.

Theorem C04_python_accepted v s :
  document_of s v -> capital_plurals v -> py_validate (sc_graph s) = Ok [] ->
  forall X S l, json_wf (JObj l) -> graph_conforms (sc_graph s) (py_leaf X S) (py_id_ok X) py_key (JObj l) ->
  exists pg, graph_rep X S (sc_graph s) l pg /\
    forall ref (es : errs), (0 < py_cap es)%Z -> py_values es = [] ->
      graph_from X S (sc_graph s) (JObj l) ref es = Ok (Some pg, es).
Proof.
  intros Hd Hcap Hp. destruct (C36_names_not_confused v s Hd Hcap Hp) as (Ha & Hr & _).
  intros. apply C04_python_parse_complete; assumption.
Qed.

Theorem C08_python_accepted_partial v s :
  document_of s v -> capital_plurals v -> py_validate (sc_graph s) = Ok [] -> schema_messages_ok (sc_graph s) ->
  forall X S w ref (es : errs), json_wf w -> floatable w -> no_null_registry (sc_graph s) w ->
  (0 < py_cap es)%Z -> (Z.of_nat (length (py_values es)) <= py_cap es)%Z ->
  exists r, graph_from X S (sc_graph s) w ref es = Ok r.
Proof.
  intros Hd Hcap Hp Hm. destruct (C36_names_not_confused v s Hd Hcap Hp) as (Ha & Hr & Hres).
  intros. apply C08_python_parser_total_partial; assumption.
Qed.

(** The JSON keys are distinct, if the document states none. *)
Lemma json_keys v s (key : cls -> str) : document_of s v -> capital_plurals v -> no_json_names v ->
  usable python36_keywords lowered (map c_plural (g_classes (sc_graph s))) \/ NoDup (map lower (map c_plural (g_classes (sc_graph s)))) ->
  (forall c, json_plural (c_plural c) = Ok (lower (c_plural c)) -> key c = lower (c_plural c)) ->
  (forall ps, In ps (composites (sc_graph s)) -> NoDup (map p_json ps)) /\
  NoDup (map p_json (g_props (sc_graph s)) ++ map key (g_classes (sc_graph s))).
Proof.
  intros Hd Hcap Hj Hu K.
  assert (E : map key (g_classes (sc_graph s)) = map lower (map c_plural (g_classes (sc_graph s)))).
  { rewrite map_map. apply map_ext_in. intros c Hc. apply K, key_of_capital. eapply graph_plurals; eauto. }
  assert (N : NoDup (map lower (map c_plural (g_classes (sc_graph s))))) by (destruct Hu as [Hu | Hu]; [eapply usable_lower; eauto | exact Hu]).
  destruct Hd as (Hw & re_ok & ordered & ref & H).
  assert (O : exists l, v = JObj l).
  { destruct (accepted_describes _ _ _ _ _ Hw H) as [(l & _ & _ & E' & _) _]. eauto. }
  destruct O as (l & ->).
  destruct (C24_json_keys_distinct_partial _ _ _ _ _ Hw H) as [A B]; [intros c ps k m; apply (Hj l c ps k m eq_refl)|].
  split; [exact A|]. rewrite E. apply P_TypeGraph.NoDup_app_intro; [apply A; unfold composites; rewrite !in_app_iff; right; right; now left | exact N|].
  intros x Hx Hy. apply in_map_iff in Hx. destruct Hx as (p & <- & Hp). rewrite map_map in Hy. apply in_map_iff in Hy.
  destruct Hy as (c & Ec & Hc). apply (B p c Hp Hc). now symmetry.
Qed.

Theorem C09_python_accepted_partial v s :
  document_of s v -> capital_plurals v -> no_json_names v -> lower_properties (sc_graph s) -> py_validate (sc_graph s) = Ok [] ->
  forall X S pg, graph_sat X (sc_graph s) (py_canon X S) pg ->
  exists w pg', serialize_graph X S (sc_graph s) pg = Ok w /\ graph_equal (sc_graph s) pg pg' /\
    forall ref (es : errs), (0 < py_cap es)%Z -> py_values es = [] ->
      graph_from X S (sc_graph s) w ref es = Ok (Some pg', es).
Proof.
  intros Hd Hcap Hj Hl Hp X S pg Hs. destruct (C36_names_not_confused v s Hd Hcap Hp) as (Ha & Hr & _).
  apply C36_no_errors_partial in Hp. destruct Hp as (_ & _ & _ & _ & Hg). apply usable_part in Hg. destruct Hg as [_ Hg].
  destruct (json_keys v s py_key Hd Hcap Hj (or_introl Hg)) as [J1 J2]; [intros c E; unfold py_key, registry_key; now rewrite E|].
  apply C09_python_round_trip_partial; auto.
  - split; intros x p Hx Hin; rewrite attr_lower.
    + apply (Hl (c_props x)); [|assumption]. unfold composites. rewrite !in_app_iff. left. now apply in_map.
    + apply (Hl (e_props x)); [|assumption]. unfold composites. rewrite !in_app_iff. right. left. now apply in_map.
  - split; [|split; [|exact J2]]; intros x Hx; apply J1; unfold composites; rewrite !in_app_iff; [left | right; left]; now apply in_map.
Qed.

(** * Go *)

Lemma usable_fields keywords names : usable keywords upper_camel names -> NoDup (map field names).
Proof.
  intros (ids & H & N & _). replace (map field names) with ids; [exact N|].
  clear N. induction H as [|n i names ids Hi _ IH]; cbn; [reflexivity|]. f_equal; [|exact IH].
  apply ucamel_upper in Hi. unfold field. now rewrite Hi.
Qed.

Theorem C37_names_not_confused v s :
  document_of s v -> go_validate (sc_graph s) = Ok [] ->
  fields_distinct (sc_graph s) /\ classes_distinct (sc_graph s) /\ resolved (sc_graph s).
Proof.
  intros (Hw & re_ok & ordered & ref & H) Hp. destruct (C33_accepted_schemas _ _ _ _ _ Hw H) as (Hn & Hr & _).
  apply C37_no_errors_partial in Hp. destruct Hp as [(_ & _ & Hf) _]. split; [|split; [|exact Hr]].
  - split.
    + intros ps Hps. rewrite <- map_map. eapply usable_fields. eapply fields_of_composites; eauto.
    + destruct Hf as (_ & _ & Hg). apply usable_part in Hg. destruct Hg as [_ Hg]. apply usable_fields in Hg.
      rewrite map_map in Hg. exact Hg.
  - inversion Hn as [|? ? _ Hn']; subst. now apply NoDup_app_parts in Hn'.
Qed.

Theorem C16_go_accepted_partial v s :
  document_of s v -> go_validate (sc_graph s) = Ok [] -> bounds_exact (sc_graph s) ->
  forall X order w ref cap, visits_all order -> json_wf w ->
  (forall r es, go_graph_from X (sc_graph s) order w ref (go_errors_new cap) = Done (r, es) -> go_empty es = true ->
    exists l gg, w = JObj l /\ r = Some gg /\ go_conforms X (sc_graph s) w /\
                 go_graph_rep X (sc_graph s) l gg /\ go_graph_sat X (sc_graph s) (go_scalar X) gg) /\
  (no_null w -> go_conforms X (sc_graph s) w ->
    exists gg, go_graph_from X (sc_graph s) order w ref (go_errors_new cap) = Done (Some gg, go_errors_new cap)) /\
  (forall p, go_graph_from X (sc_graph s) order w ref (go_errors_new cap) = Panic p -> p = PNonEmptyErrors).
Proof.
  intros Hd Hp Hb. destruct (C37_names_not_confused v s Hd Hp) as (Hf & Hc & Hr). intros X order w ref cap Ho Hw.
  split; [|split].
  - intros r es. now apply C16_go_parse_sound_partial.
  - intros. now apply C16_go_accepts_conforming_partial.
  - intros p. now apply C15_go_only_nonempty_panics_partial.
Qed.

(** The plurals of a document with distinct Go fields may be written alike in JSON: the
    keys of the registries have to be distinct. *)
Theorem C17_go_accepted_partial v s :
  document_of s v -> capital_plurals v -> no_json_names v -> go_validate (sc_graph s) = Ok [] -> bounds_exact (sc_graph s) ->
  NoDup (map (fun c => lower (c_plural c)) (g_classes (sc_graph s))) ->
  forall X order gg ref cap, visits_all order -> go_graph_sat X (sc_graph s) (go_canon X) gg ->
  exists w x gg', go_ser_graph X (sc_graph s) gg = SOk w /\ via_json w = Some x /\
    go_graph_from X (sc_graph s) order x ref (go_errors_new cap) = Done (Some gg', go_errors_new cap) /\
    go_graph_equal X (sc_graph s) gg gg'.
Proof.
  intros Hd Hcap Hj Hp Hb Hk X order gg ref cap Ho Hs. destruct (C37_names_not_confused v s Hd Hp) as (Hf & Hc & Hr).
  rewrite <- map_map in Hk.
  destruct (json_keys v s go_cls_key Hd Hcap Hj (or_intror Hk)) as [J1 J2]; [intros c E; unfold go_cls_key, go_key; now rewrite E|].
  apply C17_go_round_trip_partial; auto. split; assumption.
Qed.

(** * C++ *)

Theorem C38_names_not_confused v s :
  document_of s v -> cpp_validate (sc_graph s) = Ok [] ->
  cfields_distinct (sc_graph s) /\ cclasses_distinct (sc_graph s) /\ resolved (sc_graph s).
Proof.
  intros (Hw & re_ok & ordered & ref & H) Hp. destruct (C33_accepted_schemas _ _ _ _ _ Hw H) as (Hn & Hr & _).
  assert (Hp' := Hp). apply C38_no_errors_partial in Hp. destruct Hp as (_ & _ & _ & _ & Hg). split; [|split; [|exact Hr]].
  - split.
    + intros ps Hps. now apply (C38_declared _ Hp').
    + apply usable_part in Hg. destruct Hg as [_ Hg]. apply usable_lower in Hg. rewrite map_map in Hg. exact Hg.
  - inversion Hn as [|? ? _ Hn']; subst. now apply NoDup_app_parts in Hn'.
Qed.

Theorem C18_cpp_accepted_partial v s :
  document_of s v -> lower_properties (sc_graph s) -> cpp_validate (sc_graph s) = Ok [] -> bounds_exact (sc_graph s) ->
  forall X order w ref cap, (0 < cap)%N -> visits_all order -> json_wf w ->
  (forall r es, cpp_graph_from X (sc_graph s) order w ref (cpp_errors_new cap) = CDone (r, es) -> cpp_empty es = true ->
    exists l g, w = JObj l /\ r = Some g /\ cpp_conforms X (sc_graph s) w /\
                cpp_graph_rep X (sc_graph s) l g /\ cpp_graph_sat X (sc_graph s) (cpp_scalar X) (fun _ _ => True) g) /\
  (no_null w -> cpp_conforms X (sc_graph s) w ->
    exists g, cpp_graph_from X (sc_graph s) order w ref (cpp_errors_new cap) = CDone (Some g, cpp_errors_new cap)) /\
  (forall e, cpp_graph_from X (sc_graph s) order w ref (cpp_errors_new cap) = CThrown e -> e = XDuration).
Proof.
  intros Hd Hl Hp Hb. destruct (C38_names_not_confused v s Hd Hp) as (Hf & Hc & Hr). intros X order w ref cap Hcap Ho Hw.
  assert (Hlow : names_lower (sc_graph s)) by exact Hl.
  split; [|split].
  - intros r es. now apply C18_cpp_parse_sound_partial.
  - intros. now apply C18_cpp_accepts_conforming_partial.
  - intros e H. eapply C18_cpp_throws_only_duration_partial; eauto.
Qed.

Theorem C19_cpp_accepted_partial v s :
  document_of s v -> capital_plurals v -> no_json_names v -> lower_properties (sc_graph s) ->
  cpp_validate (sc_graph s) = Ok [] -> bounds_exact (sc_graph s) -> registries_visible (sc_graph s) ->
  forall X order g ref cap, (0 < cap)%N -> visits_all order ->
  flag_cleared X -> cpp_graph_sat X (sc_graph s) (cpp_canon X) (shown X) g -> graph_shown X (sc_graph s) g ->
  exists w g', cpp_ser_graph X (sc_graph s) g = CDone w /\
    cpp_graph_from X (sc_graph s) order w ref (cpp_errors_new cap) = CDone (Some g', cpp_errors_new cap) /\
    cpp_graph_equal X (sc_graph s) g g'.
Proof.
  intros Hd Hcap Hj Hl Hp Hb Hv X order g ref cap Hc Ho Hfl Hs Hg. destruct (C38_names_not_confused v s Hd Hp) as (Hf & Hcl & Hr).
  assert (Hlow : names_lower (sc_graph s)) by exact Hl.
  apply C38_no_errors_partial in Hp. destruct Hp as (_ & _ & _ & _ & Hu). apply usable_part in Hu. destruct Hu as [_ Hu]. apply usable_lower in Hu.
  destruct (json_keys v s cpp_cls_key Hd Hcap Hj (or_intror Hu)) as [J1 J2]; [intros c E; unfold cpp_cls_key, cpp_key; now rewrite E|].
  apply C19_cpp_round_trip_partial; auto. split; assumption.
Qed.

(** * A document which meets the hypotheses *)

Definition shop : jval :=
  obj [("name", txt "Shop"); ("description", txt "defines a shop.");
       ("classes", JArr [
          plain_class "Article" [("id_pattern", txt "^[a-z]+$");
             ("properties", obj [("price", property [("type", txt "integer"); ("minimum", JInt 0)]);
                                 ("part_of", property [("type", txt "Article"); ("optional", JBool true)]);
                                 ("size", property [("type", txt "Size")])])];
          plain_class "Box" [("plural", txt "Boxes")]]);
       ("embeds", JArr [plain_class "Size"
             [("properties", obj [("width", property [("type", txt "float"); ("minimum", JInt 0); ("exclusive_minimum", JBool true)])])]]);
       ("properties", obj [("opened", property [("type", txt "map"); ("values", obj [("type", txt "date")])])])]%string.

Example shop_hypotheses : exists s,
  document_of s shop /\ capital_plurals shop /\ no_json_names shop /\ lower_properties (sc_graph s) /\
  py_validate (sc_graph s) = Ok [] /\ go_validate (sc_graph s) = Ok [] /\ cpp_validate (sc_graph s) = Ok [] /\
  bounds_exact (sc_graph s) /\ schema_messages_ok (sc_graph s) /\
  NoDup (map (fun c => lower (c_plural c)) (g_classes (sc_graph s))) /\ registries_visible (sc_graph s).
Proof.
  assert (W : json_wf shop) by (apply wf_parts; vm_compute; reflexivity).
  destruct (schema_from_mapping (fun _ => true) true shop []) as [s|e] eqn:E; [|vm_compute in E; discriminate].
  exists s. split; [split; [exact W|]; eauto|].
  assert (Cap : capital_plurals shop).
  { intros l cs c p El Hcs Hc (m & -> & Hp). injection El as <-. cbn in Hcs. repeat destruct Hcs as [Hcs | Hcs]; try discriminate; try contradiction.
    injection Hcs as <-. cbn in Hc. repeat destruct Hc as [Hc | Hc]; try contradiction; injection Hc as <-.
    - destruct Hp as [Hp | (_ & n & Hp & ->)]; cbn in Hp; repeat destruct Hp as [Hp | Hp]; try discriminate; try contradiction.
      injection Hp as <-. eexists _, _. split; [vm_compute; reflexivity|]. unfold capital. lia.
    - destruct Hp as [Hp | (Hno & _)]; [|exfalso; apply Hno; cbn; auto].
      cbn in Hp; repeat destruct Hp as [Hp | Hp]; try discriminate; try contradiction.
      injection Hp as <-. eexists _, _. split; [vm_compute; reflexivity|]. unfold capital. lia. }
  split; [exact Cap|]. split.
  { intros l c ps k m El Hc Hps Hm. injection El as <-.
    assert (Hk : forall n o, In n (parts shop) -> n = JObj o -> no_member o "json").
    { intros n o Hn -> Hin. cbn in Hn. repeat destruct Hn as [Hn | Hn]; try discriminate; try contradiction; injection Hn as <-;
        cbn in Hin; repeat destruct Hin as [Hin | Hin]; try discriminate; contradiction. }
    apply (Hk (JObj m) m); [|reflexivity]. apply part_parts.
    assert (Pc : part (JObj c) shop).
    { destruct Hc as [|cs c Hu Hc|es e Hu Hc]; [constructor| |];
        (destruct Hu as [Hu | [_ ->]]; [|contradiction]; eapply part_object; [exact Hu|]; eapply part_array; [exact Hc|]; constructor). }
    revert Pc. generalize shop. intros v Pc. induction Pc; [|econstructor; eauto|econstructor; eauto].
    eapply part_object; [exact Hps|]. eapply part_object; [exact Hm|]. constructor. }
  vm_compute in E. injection E as <-. split.
  { intros ps p Hps Hp. vm_compute in Hps. repeat destruct Hps as [<- | Hps]; try contradiction;
      vm_compute in Hp; repeat destruct Hp as [<- | Hp]; try contradiction; vm_compute; reflexivity. }
  split; [vm_compute; reflexivity|]. split; [vm_compute; reflexivity|]. split; [vm_compute; reflexivity|]. split.
  { intros ps p Hps Hp. vm_compute in Hps. repeat destruct Hps as [<- | Hps]; try contradiction;
      vm_compute in Hp; repeat destruct Hp as [<- | Hp]; try contradiction; cbn; try exact I.
    split; [|discriminate]. intros m Hm. injection Hm as <-. exists (S754_zero false). split; vm_compute; reflexivity. }
  split; [intros ps p Hps Hp; vm_compute in Hps; repeat destruct Hps as [<- | Hps]; try contradiction;
      vm_compute in Hp; repeat destruct Hp as [<- | Hp]; try contradiction; vm_compute; auto|].
  split; [vm_compute; repeat constructor; cbn; intuition discriminate|].
  intros c [<-|[<-|[]]]; vm_compute; discriminate.
Qed.

(** ** A registry hidden by its name *)

Definition things : jval :=
  obj [("name", txt "Things"); ("description", txt "defines things.");
       ("classes", JArr [plain_class "Thing"
          [("properties", obj [("size", property [("type", txt "integer")])])]]);
       ("properties", obj [("scale", property [("type", txt "integer")])])]%string.
Definition things_graph {T} : cgraph T :=
  CGraph [(s_ "scale", CInt 2)] [(s_ "things", [(s_ "t", 0)])] [CObj (s_ "Thing") (s_ "t") [(s_ "size", CInt 3)]].

(** C19: the schema is accepted, the graph satisfies it, and the properties of the
    graph and of its instance are set. But the instance is lost without any error. *)
Theorem C19_cpp_hidden_registry_refuted : exists s,
  document_of s things /\ capital_plurals things /\ no_json_names things /\ lower_properties (sc_graph s) /\
  cpp_validate (sc_graph s) = Ok [] /\ bounds_exact (sc_graph s) /\
  forall X, cpp_graph_sat X (sc_graph s) (cpp_canon X) (shown X) things_graph /\ graph_shown X (sc_graph s) things_graph /\
    cpp_ser_graph X (sc_graph s) things_graph = CDone (JObj [(s_ "scale", JInt 2)]) /\
    exists g', cpp_graph_from X (sc_graph s) in_order (JObj [(s_ "scale", JInt 2)]) (s_ "#") (cpp_errors_new 10) =
               CDone (Some g', cpp_errors_new 10) /\
               cg_heap g' = [] /\ ~ cpp_graph_equal X (sc_graph s) things_graph g'.
Proof.
  assert (W : json_wf things) by (apply wf_parts; vm_compute; reflexivity).
  destruct (schema_from_mapping (fun _ => true) true things []) as [s|e] eqn:E; [|vm_compute in E; discriminate].
  exists s. split; [split; [exact W|]; eauto|].
  split.
  { intros l cs c p El Hcs Hc (m & -> & Hp). injection El as <-. cbn in Hcs. repeat destruct Hcs as [Hcs | Hcs]; try discriminate; try contradiction.
    injection Hcs as <-. cbn in Hc. repeat destruct Hc as [Hc | Hc]; try contradiction; injection Hc as <-.
    destruct Hp as [Hp | (_ & n & Hp & ->)]; cbn in Hp; repeat destruct Hp as [Hp | Hp]; try discriminate; try contradiction.
    injection Hp as <-. eexists _, _. split; [vm_compute; reflexivity|]. unfold capital. lia. }
  split.
  { intros l c ps k m El Hc Hps Hm. injection El as <-.
    assert (Hk : forall n o, In n (parts things) -> n = JObj o -> no_member o "json").
    { intros n o Hn -> Hin. cbn in Hn. repeat destruct Hn as [Hn | Hn]; try discriminate; try contradiction; injection Hn as <-;
        cbn in Hin; repeat destruct Hin as [Hin | Hin]; try discriminate; contradiction. }
    apply (Hk (JObj m) m); [|reflexivity]. apply part_parts.
    assert (Pc : part (JObj c) things).
    { destruct Hc as [|cs c Hu Hc|es e Hu Hc]; [constructor| |];
        (destruct Hu as [Hu | [_ ->]]; [|contradiction]; eapply part_object; [exact Hu|]; eapply part_array; [exact Hc|]; constructor). }
    revert Pc. generalize things. intros v Pc. induction Pc; [|econstructor; eauto|econstructor; eauto].
    eapply part_object; [exact Hps|]. eapply part_object; [exact Hm|]. constructor. }
  vm_compute in E. injection E as <-. split.
  { intros ps p Hps Hp. vm_compute in Hps. repeat destruct Hps as [<- | Hps]; try contradiction;
      vm_compute in Hp; repeat destruct Hp as [<- | Hp]; try contradiction; vm_compute; reflexivity. }
  split; [vm_compute; reflexivity|]. split.
  { intros ps p Hps Hp. vm_compute in Hps. repeat destruct Hps as [<- | Hps]; try contradiction;
      vm_compute in Hp; repeat destruct Hp as [<- | Hp]; try contradiction; cbn; try exact I. }
  intros X. set (G := sc_graph _).
  assert (I : forall z, (-9 < z < 9)%Z -> csat X G (cpp_canon X) (cregistered X G things_graph) (shown X) (TInt (Bounds None false None false)) (CInt z)).
  { intros z Hz. apply csat_scalar; [reflexivity|]. exists z. split; [reflexivity|]. split; [split; lia|]. split; intros m E; discriminate. }
  split; [|split; [|split]].
  - split.
    + split; [reflexivity|]. intros p [<-|[]]. eexists. split; [reflexivity|]. right. split; [discriminate|]. apply I. lia.
    + intros c [<-|[]]. split; [vm_compute; repeat constructor; simpl; tauto|].
      intros id a [E|[]]. injection E as <- <-. split; [intros q E; discriminate|].
      eexists. do 3 (split; [reflexivity|]). split.
      * split; [reflexivity|]. intros p [<-|[]]. eexists. split; [reflexivity|]. right. split; [discriminate|]. apply I. lia.
      * right. eexists. exists (CInt 3). split; [left; reflexivity|]. split; [reflexivity|discriminate].
  - right. left. eexists. exists (CInt 2). split; [left; reflexivity|]. split; [reflexivity|discriminate].
  - vm_compute. reflexivity.
  - eexists. split; [vm_compute; reflexivity|]. split; [reflexivity|].
    intros (same & _ & _ & _ & H). destruct (H _ (or_introl eq_refl)) as [K _].
    apply (K (s_ "t")). left. reflexivity.
Qed.

Print Assumptions C36_names_not_confused.
Print Assumptions C37_names_not_confused.
Print Assumptions C38_names_not_confused.
Print Assumptions C03_python_accepted_partial.
Print Assumptions C04_python_accepted.
Print Assumptions C08_python_accepted_partial.
Print Assumptions C09_python_accepted_partial.
Print Assumptions C16_go_accepted_partial.
Print Assumptions C17_go_accepted_partial.
Print Assumptions C18_cpp_accepted_partial.
Print Assumptions C19_cpp_accepted_partial.
Print Assumptions C19_cpp_hidden_registry_refuted.
