(** Theorems about the generated Python parser and serializer (C02-C10). *)
From Verif Require Import Base M_Naming M_Errors M_Dec M_Schema M_PyGen S_Conform S_PyGen S_PySer
  P_Float P_PyBase P_PyCap P_PyUnknown P_PyClean P_PyGraph P_PySafe P_PySer P_PyRound.
From Coq Require Import String Ascii List Arith NArith ZArith Bool Lia Floats.SpecFloat.
Import ListNotations.

(** ** C02 *)
Theorem C02_python_graph_iff_no_errors X S G v ref (es : errs) r es' :
  (0 < py_cap es)%Z -> py_values es = [] ->
  graph_from X S G v ref es = Ok (r, es') ->
  (r = None <-> py_values es' <> []).
Proof. exact (graph_from_outcome X S G v ref es r es'). Qed.

(** ** C03 *)

Lemma graph_sat_mono X G (so so' : ty -> pyval -> Prop) pg : (forall t x, so t x -> so' t x) ->
  graph_sat X G so pg -> graph_sat X G so' pg.
Proof.
  intros H (Ha & Hr & Hi). assert (Hm : forall ps attrs, attrs_sat G so (registered G pg) ps attrs ->
    attrs_sat G so' (registered G pg) ps attrs).
  { intros ps attrs [Hk Hx]. split; [exact Hk|]. intros p Hp. destruct (Hx p Hp) as (x & E & [Hn|Hs]);
      exists x; (split; [exact E|]); [left; exact Hn|right]. eapply sat_mono; [exact H| |exact Hs]. auto. }
  split; [apply Hm; exact Ha|]. split; [exact Hr|].
  intros c reg id a i Hc E Hin Hn. destruct (Hi c reg id a i Hc E Hin Hn) as [H1 H2]. split; [exact H1|].
  apply Hm. exact H2.
Qed.

Lemma py_scalar_small X S t x : py_scalar X S (fun z => (Z.abs z < 2 ^ 53)%Z) t x -> py_scalar_strict X S t x.
Proof.
  destruct t; cbn [py_scalar py_scalar_strict]; try (intros H; exact H).
  intros (f & -> & [H|(z & Hz & Hr & E)]); exists f; (split; [reflexivity|]); [exact H|].
  eapply float_of_Z_in_range; [|exact Hr|exact E]. destruct Hz as [Hz|[->| ->]]; [exact Hz| |]; reflexivity.
Qed.

(** The returned graph satisfies the schema, with the exception that a float read
    from an integer is the integer (which is within the bounds) rounded to the
    nearest float. *)
Theorem C03_python_parse_sound_partial X S G v ref (es : errs) pg es' :
  attrs_distinct G -> registries_distinct G -> json_wf v ->
  (0 < py_cap es)%Z -> py_values es = [] ->
  graph_from X S G v ref es = Ok (Some pg, es') ->
  es' = es /\ graph_sat X G (py_scalar X S (fun _ => True)) pg /\
  exists l, v = JObj l /\ graph_rep X S G l pg.
Proof.
  intros Hd Hr Hw Hc Hv E. destruct (graph_from_conforms X S G Hr v ref es pg es' Hw Hc Hv E) as [-> Hconf].
  split; [reflexivity|]. pose proof Hconf as (l & -> & _).
  destruct (conforms_graph_from X S G Hd Hr (fun _ => True) l Hw (all_ints_True _) Hconf) as (pg' & Hs & Hrep & Hy).
  rewrite (Hy ref es Hc Hv) in E. injection E as <-. split; [exact Hs|]. exists l. split; [reflexivity|exact Hrep].
Qed.

(** If the integers in the input are of magnitude below 2^53, then the returned
    graph satisfies the schema without exception. *)
Theorem C03_python_parse_sound_exact_partial X S G v ref (es : errs) pg es' :
  attrs_distinct G -> registries_distinct G -> json_wf v ->
  all_ints (fun z => (Z.abs z < 2 ^ 53)%Z) v ->
  (0 < py_cap es)%Z -> py_values es = [] ->
  graph_from X S G v ref es = Ok (Some pg, es') ->
  es' = es /\ graph_sat X G (py_scalar_strict X S) pg.
Proof.
  intros Hd Hr Hw Hi Hc Hv E. destruct (graph_from_conforms X S G Hr v ref es pg es' Hw Hc Hv E) as [-> Hconf].
  split; [reflexivity|]. pose proof Hconf as (l & -> & _).
  destruct (conforms_graph_from X S G Hd Hr _ l Hw Hi Hconf) as (pg' & Hs & _ & Hy).
  rewrite (Hy ref es Hc Hv) in E. injection E as <-. eapply graph_sat_mono; [|exact Hs].
  intros t x. apply py_scalar_small.
Qed.

(** ** C04 *)
Theorem C04_python_parse_complete X S G l :
  attrs_distinct G -> registries_distinct G -> json_wf (JObj l) ->
  graph_conforms G (py_leaf X S) (py_id_ok X) py_key (JObj l) ->
  exists pg, graph_rep X S G l pg /\
    forall ref (es : errs), (0 < py_cap es)%Z -> py_values es = [] ->
      graph_from X S G (JObj l) ref es = Ok (Some pg, es).
Proof.
  intros Hd Hr Hw Hconf.
  destruct (conforms_graph_from X S G Hd Hr (fun _ => True) l Hw (all_ints_True _) Hconf) as (pg & _ & Hrep & Hy).
  exists pg. split; [exact Hrep|exact Hy].
Qed.

(** The converse: only conforming values are accepted. *)
Theorem C03_python_parse_only_conforming X S G v ref (es : errs) pg es' :
  registries_distinct G -> json_wf v ->
  (0 < py_cap es)%Z -> py_values es = [] ->
  graph_from X S G v ref es = Ok (Some pg, es') ->
  es' = es /\ graph_conforms G (py_leaf X S) (py_id_ok X) py_key v.
Proof. intros Hr Hw Hc Hv E. exact (graph_from_conforms X S G Hr v ref es pg es' Hw Hc Hv E). Qed.

(** ** C05 *)

Lemma sat_mentions G so ro t x n a : sat G so ro t x -> mentions G t x n a ->
  ro n a.
Proof.
  intros Hs Hm. induction Hm as [n a|t mn mx l x n a Hin Hm IH|t l k x n a Hin Hm IH|e attrs m p x n a He Hp Hl Hm IH].
  - inversion Hs as [? ? Hsc| | | |]; subst; [discriminate Hsc|assumption].
  - inversion Hs as [? ? Hsc|? ? ? ? Hz Hx| | |]; subst; [discriminate Hsc|auto].
  - inversion Hs as [? ? Hsc| |? ? Hn Hx| |]; subst; [discriminate Hsc|eauto].
  - inversion Hs as [? ? Hsc| | | |? e' ? He' Hk Hx]; subst; [discriminate Hsc|].
    rewrite He in He'. injection He' as <-. destruct (Hx p Hp) as (y & Ey & [[-> _]|Hy]);
      rewrite Hl in Ey; injection Ey as ->; [inversion Hm|auto].
Qed.

Theorem C05_python_reference_integrity X S G v ref (es : errs) pg es' :
  attrs_distinct G -> registries_distinct G -> json_wf v ->
  (0 < py_cap es)%Z -> py_values es = [] ->
  graph_from X S G v ref es = Ok (Some pg, es') ->
  (* every registered instance carries the identifier it is registered under *)
  registries_ok G pg /\
  (* references from the properties of the graph *)
  (forall p x n a, In p (g_props G) -> lookup (attr (p_name p)) (pg_attrs pg) = Some x ->
     mentions G (p_type p) x n a -> registered G pg n a) /\
  (* references from the properties of the instances *)
  (forall c reg id b i p x n a, In c (g_classes G) ->
     lookup (attr (c_plural c)) (pg_registries pg) = Some reg -> In (id, b) reg ->
     nth_error (pg_heap pg) b = Some i ->
     In p (c_props c) -> lookup (attr (p_name p)) (i_attrs i) = Some x ->
     mentions G (p_type p) x n a -> registered G pg n a).
Proof.
  intros Hd Hr Hw Hc Hv E.
  destruct (C03_python_parse_sound_partial X S G v ref es pg es' Hd Hr Hw Hc Hv E) as (_ & (Ha & Hreg & Hi) & _).
  assert (Hf : forall ps attrs p x n a, attrs_sat G (py_scalar X S (fun _ => True)) (registered G pg) ps attrs ->
    In p ps -> lookup (attr (p_name p)) attrs = Some x -> mentions G (p_type p) x n a -> registered G pg n a).
  { intros ps attrs p x n a [_ Hs] Hp El Hm. destruct (Hs p Hp) as (y & Ey & [[-> _]|Hy]).
    - rewrite El in Ey. injection Ey as ->. inversion Hm.
    - rewrite El in Ey. injection Ey as ->. eapply sat_mentions; [exact Hy|exact Hm]. }
  split; [exact Hreg|]. split.
  - intros p x n a Hp El Hm. eapply Hf; eauto.
  - intros c reg id b i p x n a Hcl El Hin Hn Hp Ex Hm.
    destruct (Hi c reg id b i Hcl El Hin Hn) as [_ Hs]. eapply Hf; eauto.
Qed.

(** ** C06 *)
Theorem C06_python_capacity_only_truncates X S G v ref c1 c2 r2 es2 :
  (0 < c1)%Z -> (c1 <= c2)%Z ->
  graph_from X S G v ref (py_errors_new c2) = Ok (r2, es2) ->
  exists r1 es1,
    graph_from X S G v ref (py_errors_new c1) = Ok (r1, es1) /\
    py_values es1 = firstn (Z.to_nat c1) (py_values es2) /\
    ((Z.of_nat (length (py_values es2)) < c1)%Z -> r1 = r2).
Proof.
  intros H1 H2 E. destruct (graph_from_smaller_ok X S G v ref c1 c2 r2 es2 H1 H2 E) as (r1 & es1 & E1 & Hr).
  exists r1, es1. split; [exact E1|]. split; [|exact Hr].
  eapply graph_from_prefix; eauto.
Qed.

(** ** C07 *)
Theorem C07_python_unknown_members_ignored X S G l l' ref es :
  graph_agree G l l' ->
  graph_from X S G (JObj l) ref es = graph_from X S G (JObj l') ref es.
Proof. intros H. exact (same_graph_from X S G l l' ref H es). Qed.

Theorem C07_python_unknown_member_of_graph X S G l1 l2 k x ref es :
  (forall c, In c (g_classes G) -> py_key c <> k) ->
  (forall p, In p (g_props G) -> p_json p <> k) ->
  graph_from X S G (JObj (l1 ++ (k, x) :: l2)) ref es = graph_from X S G (JObj (l1 ++ l2)) ref es.
Proof.
  intros H1 H2. symmetry. apply C07_python_unknown_members_ignored. apply graph_agree_insert; assumption.
Qed.

(** ** C08 *)

(** No exception escapes if (a) the error messages about patterns and formats can
    be formatted (no stray braces), (b) no registry is null, (c) all integers fit
    into a float, (d) the capacity is positive, and the schema has been resolved. *)
Theorem C08_python_parser_total_partial X S G v ref (es : errs) :
  resolved G -> schema_messages_ok G -> registries_distinct G ->
  json_wf v -> floatable v -> no_null_registry G v ->
  (0 < py_cap es)%Z -> (Z.of_nat (length (py_values es)) <= py_cap es)%Z ->
  exists r, graph_from X S G v ref es = Ok r.
Proof. intros H1 H2 H3. exact (graph_from_safe X S G H1 H2 H3 v ref es). Qed.

(** Patterns and formats without braces are harmless. *)
Theorem C08_python_messages_without_braces p :
  (forall c, In c p -> c <> 123%N /\ c <> 125%N) ->
  format_match p = None /\ format_strptime p = None.
Proof. intros H. split; [apply format_match_plain|apply format_strptime_plain]; exact H. Qed.

(** ** C09 *)
Theorem C09_python_round_trip_partial X S G pg :
  attrs_distinct G -> registries_distinct G -> lower_names G -> json_distinct G ->
  graph_sat X G (py_canon X S) pg ->
  exists v pg', serialize_graph X S G pg = Ok v /\ graph_equal G pg pg' /\
    forall ref (es : errs), (0 < py_cap es)%Z -> py_values es = [] ->
      graph_from X S G v ref es = Ok (Some pg', es).
Proof. intros H1 H2 H3 H4. exact (round_trip X S G H1 H2 H3 H4 pg). Qed.

(** ** C10 *)
Theorem C10_python_serialize_partial X S G pg :
  lower_names G -> json_distinct G -> graph_typed S G pg ->
  (serialize_graph X S G pg = Raise ValueError /\ inconsistent G pg) \/
  (exists l, serialize_graph X S G pg = Ok (JObj l) /\ ~ inconsistent G pg /\ graph_wrote X G pg l).
Proof.
  intros H1 H2 Ht. destruct (serialize_graph_cases X S G H1 H2 pg Ht) as [H|(l & E & Hi & Hw & _)]; [left; exact H|].
  right. exists l. auto.
Qed.

Theorem C10_python_raises_iff_inconsistent_partial X S G pg :
  lower_names G -> json_distinct G -> graph_typed S G pg ->
  (serialize_graph X S G pg = Raise ValueError <-> inconsistent G pg).
Proof.
  intros H1 H2 Ht. destruct (C10_python_serialize_partial X S G pg H1 H2 Ht) as [[E Hi]|(l & E & Hi & _)].
  - split; auto.
  - rewrite E. split; [discriminate|]. intros H. destruct (Hi H).
Qed.

Print Assumptions C02_python_graph_iff_no_errors.
Print Assumptions C03_python_parse_sound_partial.
Print Assumptions C03_python_parse_sound_exact_partial.
Print Assumptions C03_python_parse_only_conforming.
Print Assumptions C04_python_parse_complete.
Print Assumptions C05_python_reference_integrity.
Print Assumptions C06_python_capacity_only_truncates.
Print Assumptions C07_python_unknown_members_ignored.
Print Assumptions C07_python_unknown_member_of_graph.
Print Assumptions C08_python_parser_total_partial.
Print Assumptions C08_python_messages_without_braces.
Print Assumptions C09_python_round_trip_partial.
Print Assumptions C10_python_serialize_partial.
Print Assumptions C10_python_raises_iff_inconsistent_partial.
