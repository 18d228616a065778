(** C20: documents exchanged between the languages. *)
From Coq Require Import String List ZArith NArith Bool Lia Floats.SpecFloat.
From Verif Require Import Base M_Naming M_Errors M_Dec M_Schema M_Duration M_Num M_Validate M_LangValid M_PyGen M_GoGen M_CppGen
  S_Validate S_Conform S_Common S_PyGen S_PySer S_GoGen S_CppGen S_Interop P_Common P_PySer P_PyRound P_GoSer P_CppSer P_CppTime P_DurCross
  P_Interop P_InteropLang P_InteropCross P_InteropPairs T_PyGen T_PyDemo T_GoGen T_CppGen T_Validate T_EndToEnd.
Import ListNotations.
Local Open Scope nat_scope.

(** ** A document accepted in one language is accepted in the others *)

Section Accepted.
  Variables (PX : ext) (PS : py_settings) (GX : gext) (CX : cext).
  Variable G : graph.
  Hypothesis R : ready G.
  (** The same document, as read by the JSON libraries of the two languages. *)
  Variables w w' : jval.
  Hypothesis W : json_wf w.
  Hypothesis W' : json_wf w'.
  Hypothesis SD : same_doc w w'.

  Theorem C20_python_to_go_partial pg : no_null w -> plain G w -> only_floats w' ->
    texts_agree G (py_leaf PX PS) (go_leaf GX) (py_id_ok PX) (go_id_ok GX) w ->
    py_accepts PX PS G w pg ->
    go_takes GX G w' (fun gg => same_graph (Python PX PS) (Go_ GX) G (py_view pg) (go_view gg)).
  Proof.
    intros N P O T A. destruct (py_sent PX PS G R w pg W A) as (l & E & C & U). subst w.
    pose proof SD as SD'. inversion SD' as [| | | | | | | |? l' HK HV]; subst.
    apply go_received; [exact R|exact W'|eapply same_no_null; eassumption| |].
    - eapply cross_py_go; eassumption.
    - intros gg U'. eapply graphs_same; [|apply R_names; exact R|exact SD|exact W|exact W'|exact U|exact U'].
      intros. eapply scalar_py_go; eassumption.
  Qed.

  Theorem C20_python_to_cpp_partial pg : no_null w -> plain G w ->
    texts_agree G (py_leaf PX PS) (cpp_leaf CX) (py_id_ok PX) (cpp_id_ok CX) w ->
    py_accepts PX PS G w pg ->
    cpp_takes CX G w' (fun g => same_graph (Python PX PS) (Cpp_ CX) G (py_view pg) (cpp_view g)).
  Proof.
    intros N P T A. destruct (py_sent PX PS G R w pg W A) as (l & E & C & U). subst w.
    pose proof SD as SD'. inversion SD' as [| | | | | | | |? l' HK HV]; subst.
    apply cpp_received; [exact R|exact W'|eapply same_no_null; eassumption| |].
    - eapply cross_py_cpp; eassumption.
    - intros gg U'. eapply graphs_same; [|apply R_names; exact R|exact SD|exact W|exact W'|exact U|exact U'].
      intros. eapply scalar_py_cpp; eassumption.
  Qed.

  Theorem C20_go_to_python_partial gg : plain G w' ->
    texts_agree G (go_leaf GX) (py_leaf PX PS) (go_id_ok GX) (py_id_ok PX) w ->
    go_accepts GX G w gg ->
    py_takes PX PS G w' (fun pg => same_graph (Go_ GX) (Python PX PS) G (go_view gg) (py_view pg)).
  Proof.
    intros P T A. destruct (go_sent GX G R w gg W A) as (l & E & C & U). subst w.
    pose proof SD as SD'. inversion SD' as [| | | | | | | |? l' HK HV]; subst.
    apply py_received; [exact R|exact W'| |].
    - eapply cross_go_py; eassumption.
    - intros pg U'. eapply graphs_same; [|apply R_names; exact R|exact SD|exact W|exact W'|exact U|exact U'].
      intros t v v' a b Sc SV A1 A2. apply sym_scalar. eapply scalar_py_go; [exact Sc|apply same_sym; exact SV|exact A2|exact A1].
  Qed.

  Theorem C20_go_to_cpp_partial gg : no_null w ->
    texts_agree G (go_leaf GX) (cpp_leaf CX) (go_id_ok GX) (cpp_id_ok CX) w ->
    go_accepts GX G w gg ->
    cpp_takes CX G w' (fun g => same_graph (Go_ GX) (Cpp_ CX) G (go_view gg) (cpp_view g)).
  Proof.
    intros N T A. destruct (go_sent GX G R w gg W A) as (l & E & C & U). subst w.
    pose proof SD as SD'. inversion SD' as [| | | | | | | |? l' HK HV]; subst.
    apply cpp_received; [exact R|exact W'|eapply same_no_null; eassumption| |].
    - eapply cross_go_cpp; eassumption.
    - intros g U'. eapply graphs_same; [|apply R_names; exact R|exact SD|exact W|exact W'|exact U|exact U'].
      intros. eapply scalar_go_cpp; eassumption.
  Qed.

  Theorem C20_cpp_to_python_partial g : plain G w' ->
    texts_agree G (cpp_leaf CX) (py_leaf PX PS) (cpp_id_ok CX) (py_id_ok PX) w ->
    cpp_accepts CX G w g ->
    py_takes PX PS G w' (fun pg => same_graph (Cpp_ CX) (Python PX PS) G (cpp_view g) (py_view pg)).
  Proof.
    intros P T A. destruct (cpp_sent CX G R w g W A) as (l & E & C & U). subst w.
    pose proof SD as SD'. inversion SD' as [| | | | | | | |? l' HK HV]; subst.
    apply py_received; [exact R|exact W'| |].
    - eapply cross_cpp_py; eassumption.
    - intros pg U'. eapply graphs_same; [|apply R_names; exact R|exact SD|exact W|exact W'|exact U|exact U'].
      intros t v v' a b Sc SV A1 A2. apply sym_scalar. eapply scalar_py_cpp; [exact Sc|apply same_sym; exact SV|exact A2|exact A1].
  Qed.

  Theorem C20_cpp_to_go_partial g : no_null w -> only_floats w' ->
    texts_agree G (cpp_leaf CX) (go_leaf GX) (cpp_id_ok CX) (go_id_ok GX) w ->
    cpp_accepts CX G w g ->
    go_takes GX G w' (fun gg => same_graph (Cpp_ CX) (Go_ GX) G (cpp_view g) (go_view gg)).
  Proof.
    intros N O T A. destruct (cpp_sent CX G R w g W A) as (l & E & C & U). subst w.
    pose proof SD as SD'. inversion SD' as [| | | | | | | |? l' HK HV]; subst.
    apply go_received; [exact R|exact W'|eapply same_no_null; eassumption| |].
    - eapply cross_cpp_go; eassumption.
    - intros gg U'. eapply graphs_same; [|apply R_names; exact R|exact SD|exact W|exact W'|exact U|exact U'].
      intros t v v' a b Sc SV A1 A2. apply sym_scalar. eapply scalar_go_cpp; [exact Sc|apply same_sym; exact SV|exact A2|exact A1].
  Qed.
End Accepted.

(** ** A graph written in one language is read in the others *)

Section Written.
  Variables (PX : ext) (PS : py_settings) (GX : gext) (CX : cext).
  Variable G : graph.
  Hypothesis R : ready G.
  Hypothesis K : keys_ready G.

  Lemma written_by_python pg : graph_sat PX G (py_portable PX PS) pg ->
    exists l, serialize_graph PX PS G pg = Ok (JObj l) /\ json_wf (JObj l) /\ no_null (JObj l) /\ plain G (JObj l) /\
      graph_conforms G (py_leaf PX PS) (py_id_ok PX) py_key (JObj l) /\
      ugraph_rep G (Python PX PS) (scalar_rep PX PS) l (py_view pg).
  Proof.
    intros Hs. assert (Hc : graph_sat PX G (py_canon PX PS) pg) by (eapply graph_sat_mono; [|exact Hs]; intros t x [H _]; exact H).
    assert (Hl : lower_names G).
    { pose proof (R_lower G R) as L. assert (Q : forall ps p, In ps (composites G) -> In p ps -> attr (p_name p) = p_name p).
      { intros ps p H1 H2. rewrite attr_lower. exact (L ps p H1 H2). }
      split; intros c p H1 H2; (eapply Q; [|exact H2]); [apply class_props; exact H1|].
      unfold composites. rewrite !in_app_iff. right. left. apply in_map. exact H1. }
    assert (Hj : json_distinct G).
    { destruct K as [K1 K2]. split; [|split; [|exact K2]].
      - intros c H1. apply K1. apply class_props. exact H1.
      - intros e H1. apply K1. unfold composites. rewrite !in_app_iff. right. left. apply in_map. exact H1. }
    destruct (canon_typed PX PS G pg Hc) as [Ht Hi].
    destruct (serialize_graph_cases PX PS G Hl Hj pg Ht) as [[_ C]|(l & E & _ & Hw & W)]; [contradiction|].
    destruct (wrote_conforms PX PS G (R_attrs G R) pg l Hc Hw) as [Cf Rp].
    exists l. split; [exact E|]. split; [exact W|]. split; [eapply graph_no_null; eassumption|].
    split; [eapply graph_plain; eassumption|]. split; [exact Cf|]. apply py_graph; [apply R_attrs; exact R|exact W|exact Rp].
  Qed.

  (** What Python writes is read by Go and C++. *)
  Theorem C20_python_written_partial pg : graph_sat PX G (py_portable PX PS) pg ->
    exists v, serialize_graph PX PS G pg = Ok v /\
      (forall w', same_doc v w' -> json_wf w' -> only_floats w' ->
         texts_agree G (py_leaf PX PS) (go_leaf GX) (py_id_ok PX) (go_id_ok GX) v ->
         go_takes GX G w' (fun gg => same_graph (Python PX PS) (Go_ GX) G (py_view pg) (go_view gg))) /\
      (forall w', same_doc v w' -> json_wf w' ->
         texts_agree G (py_leaf PX PS) (cpp_leaf CX) (py_id_ok PX) (cpp_id_ok CX) v ->
         cpp_takes CX G w' (fun g => same_graph (Python PX PS) (Cpp_ CX) G (py_view pg) (cpp_view g))).
  Proof.
    intros Hs. destruct (written_by_python pg Hs) as (l & E & W & N & P & C & U). exists (JObj l). split; [exact E|]. split.
    - intros w' SD W' O T. inversion SD as [| | | | | | | |? l' HK HV]; subst.
      apply go_received; [exact R|exact W'|eapply same_no_null; eassumption|eapply cross_py_go; eassumption|].
      intros gg U'. eapply graphs_same; [|apply R_names; exact R|exact SD|exact W|exact W'|exact U|exact U'].
      intros. eapply scalar_py_go; eassumption.
    - intros w' SD W' T. inversion SD as [| | | | | | | |? l' HK HV]; subst.
      apply cpp_received; [exact R|exact W'|eapply same_no_null; eassumption|eapply cross_py_cpp; eassumption|].
      intros gg U'. eapply graphs_same; [|apply R_names; exact R|exact SD|exact W|exact W'|exact U|exact U'].
      intros. eapply scalar_py_cpp; eassumption.
  Qed.

  (** What Go writes ([x] is what Go itself would read) is read by Python and C++. *)
  Theorem C20_go_written_partial gg : go_graph_sat GX G (go_canon GX) gg ->
    exists v x, go_ser_graph GX G gg = SOk v /\ via_json v = Some x /\
      (forall w', same_doc x w' -> json_wf w' -> plain G w' ->
         texts_agree G (go_leaf GX) (py_leaf PX PS) (go_id_ok GX) (py_id_ok PX) x ->
         py_takes PX PS G w' (fun pg => same_graph (Go_ GX) (Python PX PS) G (go_view gg) (py_view pg))) /\
      (forall w', same_doc x w' -> json_wf w' ->
         texts_agree G (go_leaf GX) (cpp_leaf CX) (go_id_ok GX) (cpp_id_ok CX) x ->
         cpp_takes CX G w' (fun g => same_graph (Go_ GX) (Cpp_ CX) G (go_view gg) (cpp_view g))).
  Proof.
    intros Hs. destruct (P_GoSer.graph_written GX G K gg Hs) as (v & l & E & V & W & N & C & Rp).
    pose proof (go_graph GX G l gg Rp) as U. exists v, (JObj l). split; [exact E|]. split; [exact V|]. split.
    - intros w' SD W' P T. inversion SD as [| | | | | | | |? l' HK HV]; subst.
      apply py_received; [exact R|exact W'|eapply cross_go_py; eassumption|].
      intros pg U'. eapply graphs_same; [|apply R_names; exact R|exact SD|exact W|exact W'|exact U|exact U'].
      intros t y y' a b Sc SV A1 A2. apply sym_scalar. eapply scalar_py_go; [exact Sc|apply same_sym; exact SV|exact A2|exact A1].
    - intros w' SD W' T. inversion SD as [| | | | | | | |? l' HK HV]; subst.
      apply cpp_received; [exact R|exact W'|eapply same_no_null; eassumption|eapply cross_go_cpp; eassumption|].
      intros g U'. eapply graphs_same; [|apply R_names; exact R|exact SD|exact W|exact W'|exact U|exact U'].
      intros. eapply scalar_go_cpp; eassumption.
  Qed.

  (** What C++ writes is read by Python and Go. *)
  Theorem C20_cpp_written_partial g : registries_visible G -> flag_cleared CX ->
    cpp_graph_sat CX G (cpp_canon CX) (shown CX) g -> graph_shown CX G g ->
    exists v, cpp_ser_graph CX G g = CDone v /\
      (forall w', same_doc v w' -> json_wf w' -> plain G w' ->
         texts_agree G (cpp_leaf CX) (py_leaf PX PS) (cpp_id_ok CX) (py_id_ok PX) v ->
         py_takes PX PS G w' (fun pg => same_graph (Cpp_ CX) (Python PX PS) G (cpp_view g) (py_view pg))) /\
      (forall w', same_doc v w' -> json_wf w' -> only_floats w' ->
         texts_agree G (cpp_leaf CX) (go_leaf GX) (cpp_id_ok CX) (go_id_ok GX) v ->
         go_takes GX G w' (fun gg => same_graph (Cpp_ CX) (Go_ GX) G (cpp_view g) (go_view gg))).
  Proof.
    intros Hv Hf Hs Hg. destruct (P_CppSer.graph_written CX G K Hv Hf g Hs Hg) as (l & E & W & N & C & Rp).
    pose proof (cpp_graph CX G l g Rp) as U. exists (JObj l). split; [exact E|]. split.
    - intros w' SD W' P T. inversion SD as [| | | | | | | |? l' HK HV]; subst.
      apply py_received; [exact R|exact W'|eapply cross_cpp_py; eassumption|].
      intros pg U'. eapply graphs_same; [|apply R_names; exact R|exact SD|exact W|exact W'|exact U|exact U'].
      intros t y y' a b Sc SV A1 A2. apply sym_scalar. eapply scalar_py_cpp; [exact Sc|apply same_sym; exact SV|exact A2|exact A1].
    - intros w' SD W' O T. inversion SD as [| | | | | | | |? l' HK HV]; subst.
      apply go_received; [exact R|exact W'|eapply same_no_null; eassumption|eapply cross_cpp_go; eassumption|].
      intros gg U'. eapply graphs_same; [|apply R_names; exact R|exact SD|exact W|exact W'|exact U|exact U'].
      intros t y y' a b Sc SV A1 A2. apply sym_scalar. eapply scalar_go_cpp; [exact Sc|apply same_sym; exact SV|exact A2|exact A1].
  Qed.
End Written.

(** ** Schemas accepted by mapry are ready *)
Theorem C20_accepted_schemas_ready v s :
  document_of s v -> capital_plurals v -> lower_properties (sc_graph s) -> bounds_exact (sc_graph s) ->
  py_validate (sc_graph s) = Ok [] -> go_validate (sc_graph s) = Ok [] -> cpp_validate (sc_graph s) = Ok [] ->
  ready (sc_graph s) /\ (no_json_names v -> keys_ready (sc_graph s)).
Proof.
  intros Hd Hcap Hl Hb Hp Hg Hc.
  destruct (C36_names_not_confused v s Hd Hcap Hp) as (Ha & Hr & _).
  destruct (C37_names_not_confused v s Hd Hg) as (Hf & _ & _).
  destruct (C38_names_not_confused v s Hd Hc) as (Hcf & _ & _).
  split.
  - do 4 (split; [assumption|]). split; [|exact Hb]. exact Hl.
  - intros Hj. destruct Hcf as [_ Hn]. rewrite <- map_map in Hn.
    apply (json_keys v s py_key Hd Hcap Hj).
    + right. exact Hn.
    + intros c E. unfold py_key, registry_key. now rewrite E.
Qed.

(** Schemas in which texts are only constrained by being texts: every text accepted in
    one language is accepted in the others, whatever their libraries do. *)
Definition free_texts (G : graph) : Prop :=
  (forall t, scalar_in G t ->
     match t with TStr (Some _) | TPath (Some _) | TDate _ | TTime _ | TDatetime _ | TTimeZone | TDuration => False | _ => True end) /\
  forall c, In c (g_classes G) -> c_id_pattern c = None.

Theorem C20_free_texts_agree (PX : ext) (PS : py_settings) (GX : gext) (CX : cext) G w : free_texts G ->
  texts_agree G (py_leaf PX PS) (go_leaf GX) (py_id_ok PX) (go_id_ok GX) w /\
  texts_agree G (py_leaf PX PS) (cpp_leaf CX) (py_id_ok PX) (cpp_id_ok CX) w /\
  texts_agree G (go_leaf GX) (py_leaf PX PS) (go_id_ok GX) (py_id_ok PX) w /\
  texts_agree G (go_leaf GX) (cpp_leaf CX) (go_id_ok GX) (cpp_id_ok CX) w /\
  texts_agree G (cpp_leaf CX) (py_leaf PX PS) (cpp_id_ok CX) (py_id_ok PX) w /\
  texts_agree G (cpp_leaf CX) (go_leaf GX) (cpp_id_ok CX) (go_id_ok GX) w.
Proof.
  intros [F I].
  assert (A : forall leaf leaf' id_ok id_ok',
    (forall t s, match t with TStr None | TPath None => leaf' t (JStr s) | TBool | TInt _ | TFloat _ | TArray _ _ _ | TMap _ | TClass _ | TEmbed _ => ~ leaf t (JStr s) | _ => True end) ->
    texts_agree G leaf leaf' id_ok id_ok' w).
  { intros leaf leaf' id_ok id_ok' H. split.
    - intros t s Sc _ L. specialize (F t Sc). specialize (H t s).
      destruct t as [| | |[p|]|[p|]| | | | | | | | |]; try contradiction; exact H.
    - intros c p id Hc E. rewrite (I c Hc) in E. discriminate. }
  assert (P : forall t s, match t with TBool | TInt _ | TFloat _ | TArray _ _ _ | TMap _ | TClass _ | TEmbed _ => ~ py_leaf PX PS t (JStr s) | _ => True end).
  { intros t s. destruct t; cbn; auto.
    - intros [b H]. discriminate.
    - intros (z & [H|[[H _]|[H _]]] & _); discriminate.
    - intros [(f & H & _)|(z & [H|[[H _]|[H _]]] & _)]; discriminate. }
  assert (Q : forall t s, match t with TBool | TInt _ | TFloat _ | TArray _ _ _ | TMap _ | TClass _ | TEmbed _ => ~ go_leaf GX t (JStr s) | _ => True end).
  { intros t s. destruct t; cbn; auto.
    - intros [b H]. discriminate.
    - intros (f & z & H & _). discriminate.
    - intros (f & H & _). discriminate. }
  assert (U : forall t s, match t with TBool | TInt _ | TFloat _ | TArray _ _ _ | TMap _ | TClass _ | TEmbed _ => ~ cpp_leaf CX t (JStr s) | _ => True end).
  { intros t s. destruct t; cbn; auto.
    - intros [b H]. discriminate.
    - intros (z & [H|(f & H & _)] & _); discriminate.
    - intros (f & [H|(z & H & _)] & _); discriminate. }
  refine (conj _ (conj _ (conj _ (conj _ (conj _ _))))); (apply A; intros t s; specialize (P t s); specialize (Q t s); specialize (U t s);
    destruct t as [| | |[p|]|[p|]| | | | | | | | |]; auto; exists s; split; try reflexivity; intros ? E; discriminate E).
Qed.

(** The texts of durations. What Python writes is read by Go and C++, if it has at most
    64 bits in nanoseconds; Go and C++ write the same; and Python reads what they
    write, if it is a number of microseconds. *)
Theorem C20_durations_of_python us :
  (Z.abs us * 1000 < 2 ^ 63)%Z ->
  go_dur_from (py_dur_to us) = Some (us * 1000)%Z /\ cpp_dur_from false (py_dur_to us) = CppOk (us * 1000)%Z.
Proof.
  intros H. split; [|apply py_to_cpp; auto]. rewrite py_to_go. now destruct (Z.ltb_spec (Z.abs us * 1000) (2 ^ 63)); [|lia].
Qed.
Theorem C20_long_durations_of_python us d :
  (2 ^ 63 <= Z.abs us * 1000)%Z ->
  go_dur_from (py_dur_to us) = None /\ cpp_dur_from false (py_dur_to us) <> CppOk d.
Proof.
  intros H. split.
  - rewrite py_to_go. now destruct (Z.ltb_spec (Z.abs us * 1000) (2 ^ 63)); [lia|].
  - intros E. apply py_to_cpp in E. lia.
Qed.
Theorem C20_durations_of_go_and_cpp d : (- 2 ^ 63 < d < 2 ^ 63)%Z ->
  cpp_dur_to d = CppOk (go_dur_to d) /\
  (forall us, d = (us * 1000)%Z -> py_dur_from (go_dur_to d) = Some us).
Proof.
  intros H. split; [now apply go_is_cpp|]. intros us ->. rewrite go_to_py by assumption.
  rewrite Z_mod_mult, Z_div_mult by lia. reflexivity.
Qed.
Theorem C20_nanoseconds_refuted d : (- 2 ^ 63 < d < 2 ^ 63)%Z -> (forall us, d <> us * 1000)%Z ->
  py_dur_from (go_dur_to d) = None.
Proof.
  intros H N. rewrite go_to_py by assumption. destruct (Z.eqb_spec (d mod 1000) 0) as [E|E]; [|reflexivity].
  destruct (N (d / 1000)%Z). rewrite Z.mul_comm. pose proof (Z.div_mod d 1000 ltac:(lia)). lia.
Qed.
Example C20_nanosecond : py_dur_from (go_dur_to 1) = None /\ go_dur_to 1 = s_ "PT0.000000001S".
Proof. split; vm_compute; reflexivity. Qed.

(** ** Documents which are not exchanged *)

Definition one (t : ty) (o : bool) : graph := Graph (s_ "Demo") [] (s_ "ref") [] [] [gprop (s_ "a") t o].
Definition holding (v : jval) : jval := JObj [(s_ "a", v)].
Definition free := Bounds None false None false.


Lemma one_wf v : match v with JArr _ | JObj _ => False | _ => True end -> json_wf (holding v).
Proof.
  intros H. apply jwf_obj; [repeat constructor; intros []|]. intros k x [E|[]]. injection E as <- <-. destruct v; try destruct H; constructor.
Qed.
Lemma one_ready t o : ty_bounds_exact t -> ready (one t o).
Proof.
  intros H. unfold ready, one, attrs_distinct, registries_distinct, fields_distinct, cfields_distinct, names_lower, bounds_exact, composites. cbn.
  refine (conj _ (conj _ (conj _ (conj _ (conj _ _))))).
  - intros ps [<-|[]]. repeat constructor. intros [].
  - repeat split; try constructor; intros ? [].
  - repeat split; try constructor; intros ? [<-|[]]. repeat constructor. intros [].
  - repeat split; try constructor; intros ? [<-|[]]. repeat constructor. intros [].
  - intros ps p [<-|[]] [<-|[]]. reflexivity.
  - intros ps p [<-|[]] [<-|[]]. exact H.
Qed.
Lemma one_conforms t v leaf id_ok key : scalar t = true ->
  graph_conforms (one t false) leaf id_ok key (holding v) -> leaf t v.
Proof.
  intros Ht (l & E & _ & F). injection E as <-. destruct (F _ (or_introl eq_refl)) as [[E _]|(x & E & _ & C)]; [discriminate E|].
  injection E as <-. cbn in C. inversion C; subst; try discriminate Ht. assumption.
Qed.
Lemma go_refuses X t v gg : scalar t = true -> ty_bounds_exact t -> json_wf (holding v) -> ~ go_leaf X t v -> ~ go_accepts X (one t false) (holding v) gg.
Proof.
  intros Ht Hb W N A. destruct (go_sent X _ (one_ready t false Hb) _ _ W A) as (l & _ & C & _). apply N. eapply one_conforms; eassumption.
Qed.
Lemma cpp_refuses X t v g : scalar t = true -> ty_bounds_exact t -> json_wf (holding v) -> ~ cpp_leaf X t v -> ~ cpp_accepts X (one t false) (holding v) g.
Proof.
  intros Ht Hb W N A. destruct (cpp_sent X _ (one_ready t false Hb) _ _ W A) as (l & _ & C & _). apply N. eapply one_conforms; eassumption.
Qed.
Lemma py_refuses X S t v pg : scalar t = true -> ty_bounds_exact t -> json_wf (holding v) -> ~ py_leaf X S t v -> ~ py_accepts X S (one t false) (holding v) pg.
Proof.
  intros Ht Hb W N A. destruct (py_sent X S _ (one_ready t false Hb) _ _ W A) as (l & _ & C & _). apply N. eapply one_conforms; eassumption.
Qed.
Ltac accepted := do 2 eexists; repeat (split; [vm_compute; reflexivity|]); vm_compute; reflexivity.

(** Python takes [true] for the integer 1. *)
Theorem C20_true_for_one_refuted :
  py_accepts T_PyDemo.X T_PyDemo.S (one (TInt free) false) (holding (JBool true)) (PyGraph [(s_ "a", PVBool true)] [] []) /\
  (forall X gg, ~ go_accepts X (one (TInt free) false) (holding (JBool true)) gg) /\
  (forall X g, ~ cpp_accepts X (one (TInt free) false) (holding (JBool true)) g).
Proof.
  split; [|split].
  - exists (s_ "#"), (py_errors_new 10). split; [reflexivity|]. split; [reflexivity|]. vm_compute. reflexivity.
  - intros X gg. apply go_refuses; try reflexivity; [now apply one_wf|]. intros (f & z & E & _). discriminate E.
  - intros X g. apply cpp_refuses; try reflexivity; [now apply one_wf|]. intros (z & [E|(f & E & _)] & _); discriminate E.
Qed.

(** Python takes integers of more than 64 bits. *)
Theorem C20_long_integer_refuted :
  py_accepts T_PyDemo.X T_PyDemo.S (one (TInt free) false) (holding (JInt (2 ^ 63))) (PyGraph [(s_ "a", PVInt (2 ^ 63))] [] []) /\
  (forall X w' gg, same_doc (holding (JInt (2 ^ 63))) w' -> json_wf w' -> ~ go_accepts X (one (TInt free) false) w' gg) /\
  (forall X g, ~ cpp_accepts X (one (TInt free) false) (holding (JInt (2 ^ 63))) g).
Proof.
  split; [|split].
  - exists (s_ "#"), (py_errors_new 10). split; [reflexivity|]. split; [reflexivity|]. vm_compute. reflexivity.
  - intros X w' gg SD W A. destruct (go_sent X _ (one_ready (TInt free) false I) _ _ W A) as (l & -> & (l' & E & _ & F) & _). injection E as <-.
    destruct (F _ (or_introl eq_refl)) as [[D _]|(v & L & _ & C)]; [discriminate D|].
    inversion SD as [| | | | | | | |? ? HK HV]; subst. specialize (HV (s_ "a") _ v (or_introl eq_refl) (lookup_In _ _ _ L)).
    cbn in C. inversion C; subst; try discriminate. destruct H0 as (f & z & -> & Fi & R & _).
    inversion HV as [| | | | |? ? _ H1| | |]; subst. pose proof (float_is_unique _ _ _ H1 Fi) as U. destruct R. lia.
  - intros X g. apply cpp_refuses; try reflexivity; [now apply one_wf|]. intros (z & [E|(f & E & _)] & R & _); [|discriminate E].
    injection E as <-. destruct R. lia.
Qed.

(** Go rounds integers of more than 53 bits ([via_json] is how Go reads the document). *)
Theorem C20_rounded_integer_refuted :
  let w := holding (JInt (2 ^ 53 + 1)) in
  py_accepts T_PyDemo.X T_PyDemo.S (one (TInt free) false) w (PyGraph [(s_ "a", PVInt (2 ^ 53 + 1))] [] []) /\
  cpp_accepts CX (one (TInt free) false) w (CGraph [(s_ "a", CInt (2 ^ 53 + 1))] [] []) /\
  exists w', via_json w = Some w' /\
    go_accepts GX (one (TInt free) false) w' (GoGraph [(s_ "A", GInt (2 ^ 53))] [] []).
Proof.
  split; [|split].
  - exists (s_ "#"), (py_errors_new 10). split; [reflexivity|]. split; [reflexivity|]. vm_compute. reflexivity.
  - exists T_CppGen.in_order, (s_ "#"), 10%N. split; [exact T_CppGen.in_order_ok|]. split; [reflexivity|]. vm_compute. reflexivity.
  - eexists. split; [vm_compute; reflexivity|]. exists T_GoGen.in_order, (s_ "#"), 10%N. split; [exact T_GoGen.in_order_ok|]. vm_compute. reflexivity.
Qed.

(** Python takes null for an absent optional property. *)
Theorem C20_null_refuted :
  let G := one TBool true in
  py_accepts T_PyDemo.X T_PyDemo.S G (holding JNull) (PyGraph [(s_ "a", PVNone)] [] []) /\
  (exists r e, go_graph_from GX G T_GoGen.in_order (holding JNull) (s_ "#") (go_errors_new 10) = Done (r, GoErrors 10 [e])) /\
  (exists r e, cpp_graph_from CX G T_CppGen.in_order (holding JNull) (s_ "#") (cpp_errors_new 10) = CDone (r, CppErrors 10 [e])).
Proof.
  split; [|split].
  - exists (s_ "#"), (py_errors_new 10). split; [reflexivity|]. split; [reflexivity|]. vm_compute. reflexivity.
  - do 2 eexists. vm_compute. reflexivity.
  - do 2 eexists. vm_compute. reflexivity.
Qed.

(** Patterns: Python looks for a match at the beginning of the text, Go anywhere in it and
    C++ for a match of all of it. Here the patterns are literals. *)
Fixpoint contains (p s : str) : bool :=
  gprefix p s || match s with [] => false | _ :: s' => contains p s' end.
Definition FX : gext := GExt nat contains (fun _ _ => None) (fun _ _ => []) (fun _ => None).
Definition EX : cext := CExt false nat str_eqb (fun _ _ => None) (fun _ _ => []) (fun _ _ _ => None) (fun _ _ _ => []) (fun _ => None) (fun _ => false) (2 ^ 62).
Theorem C20_patterns_refuted :
  let G := one (TStr (Some (s_ "a"))) false in
  (* "ab": Python and Go *)
  py_accepts T_PyDemo.X T_PyDemo.S G (holding (JStr (s_ "ab"))) (PyGraph [(s_ "a", PVStr (s_ "ab"))] [] []) /\
  go_accepts FX G (holding (JStr (s_ "ab"))) (GoGraph [(s_ "A", GStr (s_ "ab"))] [] []) /\
  (forall g, ~ cpp_accepts EX G (holding (JStr (s_ "ab"))) g) /\
  (* "ba": Go only *)
  go_accepts FX G (holding (JStr (s_ "ba"))) (GoGraph [(s_ "A", GStr (s_ "ba"))] [] []) /\
  (forall pg, ~ py_accepts T_PyDemo.X T_PyDemo.S G (holding (JStr (s_ "ba"))) pg) /\
  (forall g, ~ cpp_accepts EX G (holding (JStr (s_ "ba"))) g).
Proof.
  refine (conj _ (conj _ (conj _ (conj _ (conj _ _))))).
  - exists (s_ "#"), (py_errors_new 10). split; [reflexivity|]. split; [reflexivity|]. vm_compute. reflexivity.
  - exists T_GoGen.in_order, (s_ "#"), 10%N. split; [exact T_GoGen.in_order_ok|]. vm_compute. reflexivity.
  - intros g. apply cpp_refuses; try reflexivity; [now apply one_wf|]. intros (s & E & M). injection E as <-. specialize (M _ eq_refl). discriminate M.
  - exists T_GoGen.in_order, (s_ "#"), 10%N. split; [exact T_GoGen.in_order_ok|]. vm_compute. reflexivity.
  - intros pg. apply py_refuses; try reflexivity; [now apply one_wf|]. intros (s & E & M). injection E as <-. specialize (M _ eq_refl). discriminate M.
  - intros g. apply cpp_refuses; try reflexivity; [now apply one_wf|]. intros (s & E & M). injection E as <-. specialize (M _ eq_refl). discriminate M.
Qed.

(** ** Graphs which are exchanged *)

(** Both Go and C++ receive with libraries which take any time zone. *)
Definition RX : gext := GExt nat gprefix (fun l s => if str_eqb s (s_ "2020") then Some 2020 else None)
  (fun _ _ => s_ "2020") (fun s => Some s).
Definition PX : ext := Ext gprefix
  (fun _ s => if str_eqb s (s_ "2020") then Some (Dt 2020 1 1 0 0 0 0 None) else None)
  (fun _ _ => s_ "2020") (fun s => s) (fun s => Some s) (fun s => s_ "'" ++ s ++ s_ "'") py_dur_from py_dur_to.

(** [gl] with an integer for the integer, as Python and C++ read it. *)
Definition pl : list (str * jval) :=
  [(s_ "persons", JObj
     [(s_ "p1", JObj [(s_ "name", JStr (s_ "anna"));
                      (s_ "friends", JArr [JStr (s_ "p2"); JStr (s_ "p1")])]);
      (s_ "p2", JObj [(s_ "name", JStr (s_ "abe"))])]);
   (s_ "home", JObj [(s_ "number", JInt 3); (s_ "owner", JStr (s_ "p2"))]);
   (s_ "ratio", JFloat T_GoGen.f5);
   (s_ "since", JStr (s_ "2020"));
   (s_ "zone", JStr (s_ "UTC"));
   (s_ "wait", JStr (s_ "PT1S"));
   (s_ "by_year", JObj [(s_ "1999", JArr [JStr (s_ "p2")])])].
Definition gl := T_GoGen.gl.
Definition rotated (l : list (str * jval)) := tl l ++ [hd (s_ "", JNull) l].

Ltac members :=
  repeat match goal with
         | H : In _ (_ :: _) |- _ => destruct H as [H|H]; [(injection H as <- <-) || subst|]
         | H : In _ [] |- _ => destruct H
         end.
Ltac same_docs :=
  repeat match goal with
         | |- same_doc (JObj _) (JObj _) => apply sd_obj; [intros ?k; vm_compute; tauto|intros ?k ?v ?v' ?Hin ?Hin';
             cbn in Hin, Hin';
             repeat (destruct Hin as [Hin|Hin]; [injection Hin as <- <-|]); try destruct Hin;
             repeat (destruct Hin' as [Hin'|Hin']; [try discriminate Hin'; injection Hin' as <-|]); try destruct Hin']
         | |- same_doc (JArr _) (JArr _) => apply sd_arr; repeat constructor
         | |- same_doc (JInt _) (JFloat _) => apply sd_int_float; [eexists; split; vm_compute; reflexivity|vm_compute; reflexivity]
         | |- same_doc (JFloat _) (JInt _) => apply sd_float_int; [eexists; split; vm_compute; reflexivity|vm_compute; reflexivity]
         | |- same_doc _ _ => constructor
         end.
Example gl_pl : same_doc (JObj gl) (JObj pl).
Proof. unfold gl, T_GoGen.gl, pl. same_docs. Qed.
Example gl_rotated : same_doc (JObj (rotated gl)) (JObj pl).
Proof. unfold rotated, gl, T_GoGen.gl, pl. cbn [tl hd app]. same_docs. Qed.
Example pl_gl : same_doc (JObj (rotated pl)) (JObj gl).
Proof. unfold rotated, gl, T_GoGen.gl, pl. cbn [tl hd app]. same_docs. Qed.
Example pl_wf : json_wf (JObj pl).
Proof.
  unfold pl.
  repeat match goal with
         | |- json_wf (JObj _) => apply jwf_obj; [vm_compute; repeat constructor; simpl; intuition discriminate|intros k v Hin]
         | |- json_wf (JArr _) => apply jwf_arr; intros v Hin
         | |- json_wf _ => constructor
         | H : In _ _ |- _ => progress members
         end.
Qed.
Example gl_floats : only_floats (JObj gl).
Proof.
  unfold only_floats, gl, T_GoGen.gl.
  repeat match goal with
         | |- all_ints _ (JObj _) => apply ints_obj; intros k v Hin
         | |- all_ints _ (JArr _) => apply ints_arr; intros v Hin
         | |- all_ints _ _ => constructor
         | H : In _ _ |- _ => progress members
         end.
Qed.
Example GG_ready : ready GG.
Proof.
  refine (conj _ (conj _ (conj GG_fields (conj CG_fields (conj CG_lower GG_bounds))))).
  - intros ps H. cbn in H. destruct H as [<-|[<-|[<-|[]]]]; vm_compute;
      repeat constructor; simpl; intuition discriminate.
  - split; [|split]; vm_compute; repeat constructor; simpl; intuition discriminate.
Qed.
Example GG_keys : keys_ready GG. Proof. exact GG_json. Qed.
Example pl_plain : plain GG (JObj pl).
Proof.
  exists pl. split; [reflexivity|].
  assert (K : forall id, In id [s_ "p1"; s_ "p2"] -> listed GG py_key pl (s_ "Person") id).
  { intros id H. exists gperson. eexists. split; [reflexivity|]. split; [reflexivity|]. destruct H as [<-|[<-|[]]]; vm_compute; auto. }
  split.
  - intros c [<-|[]]. right. eexists. split; [vm_compute; reflexivity|]. intros id v H. split; [intros; exact I|].
    destruct H as [H|[H|[]]]; injection H as <- <-; eexists; (split; [reflexivity|]); intros p [<-|[<-|[]]].
    + right. eexists. split; [reflexivity|]. split; [discriminate|]. apply conf_scalar; [reflexivity|exact I].
    + right. eexists. split; [reflexivity|]. split; [discriminate|]. apply conf_array; [split; intros m E; [discriminate|injection E as <-; vm_compute; discriminate]|].
      intros v [<-|[<-|[]]]; apply conf_ref; apply K; cbn; auto.
    + right. eexists. split; [reflexivity|]. split; [discriminate|]. apply conf_scalar; [reflexivity|exact I].
    + left. split; [reflexivity|left; reflexivity].
  - intros p H. right. destruct H as [<-|[<-|[<-|[<-|[<-|[<-|[]]]]]]]; eexists; (split; [reflexivity|]); (split; [discriminate|]);
      try (apply conf_scalar; [reflexivity|exact I]).
    + eapply conf_embed; [reflexivity|]. intros p [<-|[<-|[]]]; right; eexists; (split; [reflexivity|]); (split; [discriminate|]).
      * apply conf_scalar; [reflexivity|]. eexists. split; [reflexivity|]. split; vm_compute; discriminate || reflexivity.
      * apply conf_ref. apply K. cbn. auto.
    + apply conf_scalar; [reflexivity|]. left. eexists. reflexivity.
    + apply conf_map. intros k v [E|[]]. injection E as <- <-. apply conf_array; [split; intros; discriminate|].
      intros v [<-|[]]. apply conf_ref. apply K. cbn. auto.
Qed.

(** The texts of a document. *)
Fixpoint texts (w : jval) : list str :=
  match w with
  | JStr s => [s]
  | JArr l => flat_map texts l
  | JObj l => map fst l ++ flat_map (fun kv => texts (snd kv)) l
  | _ => []
  end.
Lemma occurs_texts s w : occurs s w -> In s (texts w).
Proof.
  induction 1; cbn [texts].
  - left. reflexivity.
  - apply in_flat_map. eauto.
  - apply in_app_iff. left. change s with (fst (s, v)). now apply in_map.
  - apply in_app_iff. right. apply in_flat_map. exists (k, v). auto.
Qed.
Lemma GG_scalars t : scalar_in GG t ->
  In t [TStr (Some (s_ "a")); TClass (s_ "Person"); TInt (Bounds (Some 0%Z) false (Some 10%Z) true); TEmbed (s_ "Address");
        TFloat (Bounds (Some 0%Z) true None false); TDate (s_ "%Y"); TTimeZone; TDuration].
Proof.
  intros (ps & p & H1 & H2 & <-). cbn in H1. destruct H1 as [<-|[<-|[<-|[]]]]; cbn in H2;
    repeat (destruct H2 as [<-|H2]; [cbn; tauto|]); destruct H2.
Qed.
Lemma GG_agree (leaf leaf' : ty -> jval -> Prop) (id_ok id_ok' : str -> str -> Prop) w :
  (forall s, In s (texts w) ->
     (leaf (TStr (Some (s_ "a"))) (JStr s) -> leaf' (TStr (Some (s_ "a"))) (JStr s)) /\
     (leaf (TDate (s_ "%Y")) (JStr s) -> leaf' (TDate (s_ "%Y")) (JStr s)) /\
     (leaf TTimeZone (JStr s) -> leaf' TTimeZone (JStr s)) /\
     (leaf TDuration (JStr s) -> leaf' TDuration (JStr s)) /\
     (id_ok (s_ "p") s -> id_ok' (s_ "p") s)) ->
  (forall t s, ~ scalar t = true -> ~ leaf t (JStr s)) ->
  (forall b s, ~ leaf (TInt b) (JStr s)) -> (forall b s, ~ leaf (TFloat b) (JStr s)) ->
  texts_agree GG leaf leaf' id_ok id_ok' w.
Proof.
  intros H N1 N2 N3. split.
  - intros t s Sc O L. apply occurs_texts in O. destruct (H s O) as (A & B & C & D & _).
    apply GG_scalars in Sc. cbn in Sc. 
    repeat (destruct Sc as [<-|Sc]; [first [auto; fail|now apply N1 in L|now apply N2 in L|now apply N3 in L]|]). destruct Sc.
  - intros c p id [<-|[]] E O. injection E as <-. apply H. now apply occurs_texts.
Qed.
(** What the three of them read in the document. *)
Definition sane (leaf : ty -> jval -> Prop) : Prop :=
  (forall s, In s (texts (JObj pl)) -> leaf (TDate (s_ "%Y")) (JStr s) -> s = s_ "2020") /\
  (forall s, In s (texts (JObj pl)) -> leaf TDuration (JStr s) -> s = s_ "PT1S") /\
  leaf (TDate (s_ "%Y")) (JStr (s_ "2020")) /\ leaf TDuration (JStr (s_ "PT1S")) /\
  (forall t s, ~ scalar t = true -> ~ leaf t (JStr s)) /\
  (forall b s, ~ leaf (TInt b) (JStr s)) /\ (forall b s, ~ leaf (TFloat b) (JStr s)).
Ltac each H := cbn [texts pl map app fst snd flat_map In] in H; repeat (destruct H as [<-|H]; [try reflexivity; intros L; exfalso|]); try destruct H.
Lemma py_sane : sane (py_leaf PX T_PyDemo.S).
Proof.
  refine (conj _ (conj _ (conj _ (conj _ (conj _ (conj _ _)))))).
  - intros s H. each H; destruct L as (s & E & L); injection E as <-; apply L; vm_compute; reflexivity.
  - intros s H. each H; destruct L as (s & E & L); injection E as <-; apply L; vm_compute; reflexivity.
  - eexists. split; [reflexivity|]. vm_compute. discriminate.
  - eexists. split; [reflexivity|]. vm_compute. discriminate.
  - intros t s N L. destruct t; cbn in *; congruence.
  - intros b s (z & [H|[[H _]|[H _]]] & _); discriminate.
  - intros b s [(f & H & _)|(z & [H|[[H _]|[H _]]] & _)]; discriminate.
Qed.
Lemma go_sane X : X = GX \/ X = RX -> sane (go_leaf X).
Proof.
  intros HX. refine (conj _ (conj _ (conj _ (conj _ (conj _ (conj _ _)))))).
  - intros s H. each H; destruct L as (s & d & E & L); injection E as <-; destruct HX as [-> | ->]; vm_compute in L; discriminate L.
  - intros s H. each H; destruct L as (s & d & E & L); injection E as <-; vm_compute in L; discriminate L.
  - destruct HX as [-> | ->]; do 2 eexists; (split; [reflexivity|]); vm_compute; reflexivity.
  - do 2 eexists. split; [reflexivity|]. vm_compute. reflexivity.
  - intros t s N L. destruct t; cbn in *; congruence.
  - intros b s (f & z & H & _). discriminate.
  - intros b s (f & H & _). discriminate.
Qed.
Lemma cpp_sane : sane (cpp_leaf CX).
Proof.
  refine (conj _ (conj _ (conj _ (conj _ (conj _ (conj _ _)))))).
  - intros s H. each H; destruct L as (s & d & E & L); injection E as <-; destruct L as (s' & U & L); apply up_to_nul_c_str in U; subst s'; vm_compute in L; discriminate L.
  - intros s H. each H; destruct L as (s & d & E & L); injection E as <-; vm_compute in L; discriminate L.
  - do 2 eexists. split; [reflexivity|]. exists (s_ "2020"). split; [apply up_to_nul_c_str; reflexivity|vm_compute; reflexivity].
  - do 2 eexists. split; [reflexivity|]. vm_compute. reflexivity.
  - intros t s N L. destruct t; cbn in *; congruence.
  - intros b s (z & [H|(f & H & _)] & _); discriminate.
  - intros b s (f & [H|(z & H & _)] & _); discriminate.
Qed.
Lemma sane_agree (leaf leaf' : ty -> jval -> Prop) (id_ok id_ok' : str -> str -> Prop) w :
  (forall s, In s (texts w) -> In s (texts (JObj pl))) -> sane leaf -> sane leaf' ->
  (forall s, leaf (TStr (Some (s_ "a"))) (JStr s) -> leaf' (TStr (Some (s_ "a"))) (JStr s)) ->
  (forall s, leaf TTimeZone (JStr s) -> leaf' TTimeZone (JStr s)) ->
  (forall s, id_ok (s_ "p") s -> id_ok' (s_ "p") s) ->
  texts_agree GG leaf leaf' id_ok id_ok' w.
Proof.
  intros T (A & B & _ & _ & N1 & N2 & N3) (_ & _ & A' & B' & _) P Z I. apply GG_agree; auto.
  intros s H. apply T in H. split; [auto|]. split; [|split; [auto|split; [|auto]]].
  - intros L. rewrite (A s H L). exact A'.
  - intros L. rewrite (B s H L). exact B'.
Qed.

Lemma zone_py s : py_leaf PX T_PyDemo.S TTimeZone (JStr s).
Proof. exists s. split; [reflexivity|]. intros _. discriminate. Qed.
Lemma zone_go s : go_leaf RX TTimeZone (JStr s).
Proof. exists s, s. split; reflexivity. Qed.
Lemma zone_cpp s : cpp_leaf CX TTimeZone (JStr s).
Proof. exists s, s. split; reflexivity. Qed.
Ltac in_texts := intros s H; vm_compute in H |- *; tauto.

Definition ppgraph : pygraph :=
  PyGraph
    [(s_ "home", PVEmbed (s_ "Address") [(s_ "number", PVInt 3); (s_ "owner", PVRef 1)]);
     (s_ "ratio", PVFloat T_GoGen.f5);
     (s_ "since", PVDate (Dt 2020 1 1 0 0 0 0 None));
     (s_ "zone", PVZone (s_ "UTC"));
     (s_ "wait", PVDuration 1000000);
     (s_ "by_year", PVDict [(s_ "1999", PVList [PVRef 1])])]
    [(s_ "persons", [(s_ "p1", 0); (s_ "p2", 1)])]
    [Instance (s_ "Person") (s_ "p1") [(s_ "name", PVStr (s_ "anna")); (s_ "friends", PVList [PVRef 1; PVRef 0])];
     Instance (s_ "Person") (s_ "p2") [(s_ "name", PVStr (s_ "abe")); (s_ "friends", PVNone)]].
Example py_reads : py_accepts PX T_PyDemo.S GG (JObj pl) ppgraph.
Proof. exists (s_ "#"), (py_errors_new 10). split; [reflexivity|]. split; [reflexivity|]. vm_compute. reflexivity. Qed.
Example go_reads : go_accepts GX GG (JObj gl) ggraph.
Proof. exists T_GoGen.in_order, (s_ "#"), 0%N. split; [exact T_GoGen.in_order_ok|exact C16_demo]. Qed.
Example cpp_reads : cpp_accepts CX GG (JObj pl) dgraph.
Proof. exists T_CppGen.in_order, (s_ "#"), 10%N. split; [exact T_CppGen.in_order_ok|]. split; [reflexivity|]. vm_compute. reflexivity. Qed.
Example ppgraph_portable : graph_sat PX GG (py_portable PX T_PyDemo.S) ppgraph.
Proof.
  assert (Hr : forall a, a < 2 -> registered GG ppgraph (s_ "Person") a).
  { intros [|[|a]] H; [| |lia]; unfold registered; exists gperson; repeat (eexists || split || reflexivity); cbn; auto. }
  assert (Hm : forall p s, gprefix p s = true -> matches PX (Some p) s).
  { intros p s H q E. injection E as <-. exact H. }
  assert (S3 : sat GG (py_portable PX T_PyDemo.S) (registered GG ppgraph) (TInt (Bounds (Some 0%Z) false (Some 10%Z) true)) (PVInt 3)).
  { apply sat_scalar; [reflexivity| |discriminate]. split.
    - exists 3%Z. split; [|left; reflexivity]. split; intros m E; injection E as <-; simpl; lia.
    - exists 3%Z. split; [reflexivity|]. split; lia. }
  split; [|split].
  - split; [reflexivity|]. intros p Hp. cbn in Hp.
    destruct Hp as [<-|[<-|[<-|[<-|[<-|[<-|[]]]]]]]; eexists; (split; [reflexivity|]); right.
    + eapply sat_embed; [reflexivity|reflexivity|]. intros p Hp. cbn in Hp.
      destruct Hp as [<-|[<-|[]]]; eexists; (split; [reflexivity|]); right.
      * exact S3.
      * apply sat_ref. apply Hr. lia.
    + apply sat_scalar; [reflexivity| |discriminate]. split; [|exact I]. exists T_GoGen.f5. split; [reflexivity|].
      split; intros m E; [|discriminate]. injection E as <-. left. reflexivity.
    + apply sat_scalar; [reflexivity| |discriminate]. split; [|exact I]. do 2 eexists. split; [reflexivity|]. split; reflexivity.
    + apply sat_scalar; [reflexivity| |discriminate]. split; [|exact I]. exists (s_ "UTC"). split; reflexivity.
    + apply sat_scalar; [reflexivity| |discriminate]. split; [|exact I]. exists 1000000%Z. split; [reflexivity|]. vm_compute. reflexivity.
    + apply sat_map; [vm_compute; repeat constructor; simpl; tauto|]. intros k x [E|[]]. injection E as <- <-.
      apply sat_array; [split; intros; discriminate|]. intros x [<-|[]]. apply sat_ref. apply Hr. lia.
  - intros c [<-|[]]. eexists. split; [reflexivity|]. split; [vm_compute; repeat constructor; simpl; intuition discriminate|].
    intros id a Ha. destruct Ha as [E|[E|[]]]; injection E as <- <-; eexists; (split; [reflexivity|]); split; reflexivity.
  - intros c reg id a i [<-|[]] E Ha Hi. vm_compute in E. injection E as <-.
    destruct Ha as [E|[E|[]]]; injection E as <- <-; injection Hi as <-; (split; [apply Hm; reflexivity|]).
    + split; [reflexivity|]. intros p Hp. cbn in Hp.
      destruct Hp as [<-|[<-|[]]]; eexists; (split; [reflexivity|]); right.
      * apply sat_scalar; [reflexivity| |discriminate]. split; [|exact I]. eexists. split; [reflexivity|apply Hm; reflexivity].
      * apply sat_array; [split; intros m E; [discriminate|injection E as <-; simpl; lia]|].
        intros x [<-|[<-|[]]]; apply sat_ref; apply Hr; lia.
    + split; [reflexivity|]. intros p Hp. cbn in Hp.
      destruct Hp as [<-|[<-|[]]]; eexists; (split; [reflexivity|]).
      * right. apply sat_scalar; [reflexivity| |discriminate]. split; [|exact I].
        eexists. split; [reflexivity|apply Hm; reflexivity].
      * left. split; reflexivity.
Qed.

Example pl_rotated : same_doc (JObj (rotated pl)) (JObj pl).
Proof. unfold rotated, pl. cbn [tl hd app]. same_docs. Qed.
Example C20_demo_python :
  serialize_graph PX T_PyDemo.S GG ppgraph = Ok (JObj (rotated pl)) /\
  go_takes RX GG (JObj gl) (fun gg => same_graph (Python PX T_PyDemo.S) (Go_ RX) GG (py_view ppgraph) (go_view gg)) /\
  cpp_takes CX GG (JObj pl) (fun g => same_graph (Python PX T_PyDemo.S) (Cpp_ CX) GG (py_view ppgraph) (cpp_view g)).
Proof.
  destruct (C20_python_written_partial PX T_PyDemo.S RX CX GG GG_ready GG_keys ppgraph ppgraph_portable) as (v & E & Hg & Hc).
  assert (E' : v = JObj (rotated pl)) by (vm_compute in E; injection E as <-; reflexivity). subst v.
  split; [exact E|]. split.
  - apply Hg; [exact pl_gl|exact gl_wf|exact gl_floats|].
    apply sane_agree; [in_texts|exact py_sane|apply go_sane; auto|auto|intros; apply zone_go|auto].
  - apply Hc; [exact pl_rotated|exact pl_wf|].
    apply sane_agree; [in_texts|exact py_sane|exact cpp_sane|auto|intros; apply zone_cpp|auto].
Qed.
Example C20_demo_go : exists v,
  go_ser_graph GX GG ggraph = SOk v /\
  py_takes PX T_PyDemo.S GG (JObj pl) (fun pg => same_graph (Go_ GX) (Python PX T_PyDemo.S) GG (go_view ggraph) (py_view pg)) /\
  cpp_takes CX GG (JObj pl) (fun g => same_graph (Go_ GX) (Cpp_ CX) GG (go_view ggraph) (cpp_view g)).
Proof.
  destruct (C20_go_written_partial PX T_PyDemo.S GX CX GG GG_ready GG_keys ggraph ggraph_canon) as (v & x & E & V & Hp & Hc).
  destruct C17_demo as (v' & E' & V'). assert (v' = v) by congruence. subst v'. rewrite V in V'. injection V' as V'. change (x = JObj (rotated gl)) in V'. subst x.
  exists v. split; [exact E|]. split.
  - apply Hp; [exact gl_rotated|exact pl_wf|exact pl_plain|].
    apply sane_agree; [in_texts|apply go_sane; auto|exact py_sane|auto|intros; apply zone_py|auto].
  - apply Hc; [exact gl_rotated|exact pl_wf|].
    apply sane_agree; [in_texts|apply go_sane; auto|exact cpp_sane|auto|intros; apply zone_cpp|auto].
Qed.
Example C20_demo_cpp :
  cpp_ser_graph CX GG dgraph = CDone (JObj (rotated pl)) /\
  py_takes PX T_PyDemo.S GG (JObj pl) (fun pg => same_graph (Cpp_ CX) (Python PX T_PyDemo.S) GG (cpp_view dgraph) (py_view pg)) /\
  go_takes RX GG (JObj gl) (fun gg => same_graph (Cpp_ CX) (Go_ RX) GG (cpp_view dgraph) (go_view gg)).
Proof.
  destruct (C20_cpp_written_partial PX T_PyDemo.S RX CX GG GG_ready GG_keys dgraph CG_visible CX_flag dgraph_canon dgraph_shown) as (v & E & Hp & Hg).
  assert (E' : v = JObj (rotated pl)) by (pose proof C19_demo as D; change CG with GG in D; rewrite D in E; injection E as <-; reflexivity). subst v.
  split; [exact E|]. split.
  - apply Hp; [exact pl_rotated|exact pl_wf|exact pl_plain|].
    apply sane_agree; [in_texts|exact cpp_sane|exact py_sane|auto|intros; apply zone_py|auto].
  - apply Hg; [exact pl_gl|exact gl_wf|exact gl_floats|].
    apply sane_agree; [in_texts|exact cpp_sane|apply go_sane; auto|auto|intros; apply zone_go|auto].
Qed.
(** The documents which they accept. *)
Example C20_demo_accepted :
  go_takes RX GG (JObj gl) (fun gg => same_graph (Python PX T_PyDemo.S) (Go_ RX) GG (py_view ppgraph) (go_view gg)) /\
  cpp_takes CX GG (JObj pl) (fun g => same_graph (Python PX T_PyDemo.S) (Cpp_ CX) GG (py_view ppgraph) (cpp_view g)) /\
  py_takes PX T_PyDemo.S GG (JObj pl) (fun pg => same_graph (Go_ GX) (Python PX T_PyDemo.S) GG (go_view ggraph) (py_view pg)) /\
  cpp_takes CX GG (JObj pl) (fun g => same_graph (Go_ GX) (Cpp_ CX) GG (go_view ggraph) (cpp_view g)) /\
  py_takes PX T_PyDemo.S GG (JObj pl) (fun pg => same_graph (Cpp_ CX) (Python PX T_PyDemo.S) GG (cpp_view dgraph) (py_view pg)) /\
  go_takes RX GG (JObj gl) (fun gg => same_graph (Cpp_ CX) (Go_ RX) GG (cpp_view dgraph) (go_view gg)).
Proof.
  assert (pl_no_null : no_null (JObj pl)) by (eapply same_no_null; [exact gl_pl|exact gl_no_null]).
  refine (conj _ (conj _ (conj _ (conj _ (conj _ _))))).
  - apply (C20_python_to_go_partial PX T_PyDemo.S RX GG GG_ready (JObj pl)); [exact pl_wf|exact gl_wf|apply P_Interop.same_sym; exact gl_pl
      |exact pl_no_null|exact pl_plain|exact gl_floats| |exact py_reads].
    apply sane_agree; [in_texts|exact py_sane|apply go_sane; auto|auto|intros; apply zone_go|auto].
  - apply (C20_python_to_cpp_partial PX T_PyDemo.S CX GG GG_ready (JObj pl)); [exact pl_wf|exact pl_wf|apply P_Interop.same_refl; exact pl_wf
      |exact pl_no_null|exact pl_plain| |exact py_reads].
    apply sane_agree; [in_texts|exact py_sane|exact cpp_sane|auto|intros; apply zone_cpp|auto].
  - apply (C20_go_to_python_partial PX T_PyDemo.S GX GG GG_ready (JObj gl)); [exact gl_wf|exact pl_wf|exact gl_pl|exact pl_plain| |exact go_reads].
    apply sane_agree; [in_texts|apply go_sane; auto|exact py_sane|auto|intros; apply zone_py|auto].
  - apply (C20_go_to_cpp_partial GX CX GG GG_ready (JObj gl)); [exact gl_wf|exact pl_wf|exact gl_pl|exact gl_no_null| |exact go_reads].
    apply sane_agree; [in_texts|apply go_sane; auto|exact cpp_sane|auto|intros; apply zone_cpp|auto].
  - apply (C20_cpp_to_python_partial PX T_PyDemo.S CX GG GG_ready (JObj pl)); [exact pl_wf|exact pl_wf|apply P_Interop.same_refl; exact pl_wf
      |exact pl_plain| |exact cpp_reads].
    apply sane_agree; [in_texts|exact cpp_sane|exact py_sane|auto|intros; apply zone_py|auto].
  - apply (C20_cpp_to_go_partial RX CX GG GG_ready (JObj pl)); [exact pl_wf|exact gl_wf|apply P_Interop.same_sym; exact gl_pl
      |exact pl_no_null|exact gl_floats| |exact cpp_reads].
    apply sane_agree; [in_texts|exact cpp_sane|apply go_sane; auto|auto|intros; apply zone_go|auto].
Qed.

(** A schema whose texts are free. *)
Example C20_free : free_texts (one (TMap (TArray (TStr None) None None)) true).
Proof. split; [|intros c []]. intros t (ps & p & [<-|[]] & [<-|[]] & <-). exact I. Qed.
(** A document accepted by mapry. *)
Example C20_shop : exists s, document_of s shop /\ ready (sc_graph s) /\ keys_ready (sc_graph s).
Proof.
  destruct shop_hypotheses as (s & Hd & Hc & Hj & Hl & Hp & Hg & Hx & Hb & _). exists s. split; [exact Hd|].
  destruct (C20_accepted_schemas_ready shop s Hd Hc Hl Hb Hp Hg Hx) as [R K]. split; [exact R|exact (K Hj)].
Qed.

Print Assumptions C20_python_to_go_partial.
Print Assumptions C20_python_to_cpp_partial.
Print Assumptions C20_go_to_python_partial.
Print Assumptions C20_go_to_cpp_partial.
Print Assumptions C20_cpp_to_python_partial.
Print Assumptions C20_cpp_to_go_partial.
Print Assumptions C20_python_written_partial.
Print Assumptions C20_go_written_partial.
Print Assumptions C20_cpp_written_partial.
Print Assumptions C20_accepted_schemas_ready.
Print Assumptions C20_free_texts_agree.
Print Assumptions C20_durations_of_python.
Print Assumptions C20_long_durations_of_python.
Print Assumptions C20_durations_of_go_and_cpp.
Print Assumptions C20_nanoseconds_refuted.
Print Assumptions C20_true_for_one_refuted.
Print Assumptions C20_long_integer_refuted.
Print Assumptions C20_rounded_integer_refuted.
Print Assumptions C20_null_refuted.
Print Assumptions C20_patterns_refuted.
