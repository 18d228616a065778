(** Senders and receivers. *)
From Coq Require Import String List ZArith NArith Bool Lia Floats.SpecFloat.
From Verif Require Import Base M_Naming M_Errors M_Schema M_Num M_PyGen M_GoGen M_CppGen
  S_Conform S_Common S_PyGen S_PySer S_GoGen S_CppGen S_Interop P_Common P_PyClean P_PySer P_PyRound P_GoSer P_CppSer
  P_Interop P_InteropLang P_InteropCross T_PyGen T_GoGen T_CppGen.
Import ListNotations.
Local Open Scope nat_scope.

Lemma Forall2_In_r {A B} (R : A -> B -> Prop) l m : forall b, Forall2 R l m -> In b m -> exists a, In a l /\ R a b.
Proof.
  intros b F. induction F as [|x y l m H F IH]; intros [].
  - subst. exists x. split; [left; reflexivity|exact H].
  - destruct IH as (a & Ha & Hr); [assumption|]. exists a. split; [right; exact Ha|exact Hr].
Qed.

Section Pairs.
  Variables (PX : ext) (S : py_settings) (GX : gext) (CX : cext).
  Variable G : graph.
  Hypothesis R : ready G.

  Lemma R_attrs : attrs_distinct G. Proof. apply R. Qed.
  Lemma R_regs : registries_distinct G. Proof. apply R. Qed.
  Lemma R_fields : fields_distinct G. Proof. apply R. Qed.
  Lemma R_cfields : cfields_distinct G. Proof. apply R. Qed.
  Lemma R_lower : names_lower G. Proof. apply R. Qed.
  Lemma R_bounds : bounds_exact G. Proof. apply R. Qed.
  Lemma R_names : NoDup (map c_name (g_classes G)). Proof. apply R. Qed.

  Notation py_ok := (graph_conforms G (py_leaf PX S) (py_id_ok PX) py_key).
  Notation go_ok := (graph_conforms G (go_leaf GX) (go_id_ok GX) py_key).
  Notation cpp_ok := (graph_conforms G (cpp_leaf CX) (cpp_id_ok CX) py_key).

  (** *** Senders *)
  Lemma py_sent w pg : json_wf w -> py_accepts PX S G w pg ->
    exists l, w = JObj l /\ py_ok w /\ ugraph_rep G (Python PX S) (scalar_rep PX S) l (py_view pg).
  Proof.
    intros W (ref & es & Hc & Hv & E).
    destruct (C03_python_parse_only_conforming PX S G w ref es pg es R_regs W Hc Hv E) as [_ C].
    destruct (C03_python_parse_sound_partial PX S G w ref es pg es R_attrs R_regs W Hc Hv E) as (_ & _ & l & -> & Rp).
    exists l. split; [reflexivity|]. split; [exact C|]. apply py_graph; [exact R_attrs|exact W|exact Rp].
  Qed.
  Lemma go_sent w gg : json_wf w -> go_accepts GX G w gg ->
    exists l, w = JObj l /\ go_ok w /\ ugraph_rep G (Go_ GX) (go_scalar_rep GX) l (go_view gg).
  Proof.
    intros W (order & ref & cap & Ho & E).
    destruct (C16_go_parse_sound_partial GX G R_bounds R_fields R_names order w ref cap _ _ Ho W E eq_refl)
      as (l & g & -> & [= <-] & C & Rp & _).
    exists l. split; [reflexivity|]. split; [exact C|]. apply go_graph. exact Rp.
  Qed.
  Lemma cpp_sent w g : json_wf w -> cpp_accepts CX G w g ->
    exists l, w = JObj l /\ cpp_ok w /\ ugraph_rep G (Cpp_ CX) (cpp_scalar_rep CX) l (cpp_view g).
  Proof.
    intros W (order & ref & cap & Ho & Hc & E).
    destruct (C18_cpp_parse_sound_partial CX G R_bounds R_cfields R_names R_lower order w ref cap _ _ Hc Ho W E eq_refl)
      as (l & g' & -> & [= <-] & C & Rp & _).
    exists l. split; [reflexivity|]. split; [exact C|]. apply cpp_graph. exact Rp.
  Qed.

  (** *** Receivers *)
  Lemma py_received l (Q : pygraph -> Prop) : json_wf (JObj l) -> py_ok (JObj l) ->
    (forall pg, ugraph_rep G (Python PX S) (scalar_rep PX S) l (py_view pg) -> Q pg) -> py_takes PX S G (JObj l) Q.
  Proof.
    intros W C HQ ref es Hc Hv. destruct (C04_python_parse_complete PX S G l R_attrs R_regs W C) as (pg & Rp & H).
    exists pg. split; [apply H; assumption|]. apply HQ. apply py_graph; [exact R_attrs|exact W|exact Rp].
  Qed.
  Lemma go_received l (Q : gograph (g_time GX) -> Prop) : json_wf (JObj l) -> no_null (JObj l) -> go_ok (JObj l) ->
    (forall gg, ugraph_rep G (Go_ GX) (go_scalar_rep GX) l (go_view gg) -> Q gg) -> go_takes GX G (JObj l) Q.
  Proof.
    intros W N C HQ order ref cap Ho.
    destruct (C16_go_accepts_conforming_partial GX G R_bounds R_fields order (JObj l) ref cap Ho W N C) as [gg E].
    exists gg. split; [exact E|]. apply HQ.
    destruct (go_sent (JObj l) gg W) as (l' & [= <-] & _ & U); [exists order, ref, cap; auto|exact U].
  Qed.
  Lemma cpp_received l (Q : cgraph (cx_time CX) -> Prop) : json_wf (JObj l) -> no_null (JObj l) -> cpp_ok (JObj l) ->
    (forall g, ugraph_rep G (Cpp_ CX) (cpp_scalar_rep CX) l (cpp_view g) -> Q g) -> cpp_takes CX G (JObj l) Q.
  Proof.
    intros W N C HQ order ref cap Ho Hc.
    destruct (C18_cpp_accepts_conforming_partial CX G R_bounds R_cfields order (JObj l) ref cap Hc Ho W N C) as [g E].
    exists g. split; [exact E|]. apply HQ.
    destruct (cpp_sent (JObj l) g W) as (l' & [= <-] & _ & U); [exists order, ref, cap; auto|exact U].
  Qed.

  (** *** Extra conditions *)
  Lemma anything leaf id_ok w : graph_conforms G leaf id_ok py_key w ->
    graph_conforms G (fun _ _ => True) (fun _ _ => True) py_key w.
  Proof. apply graph_mono; auto. Qed.
  Lemma add_nothing leaf0 id0 w : graph_conforms G leaf0 id0 py_key w ->
    graph_conforms G (fun t v => leaf0 t v /\ True) id0 py_key w.
  Proof. apply graph_mono; auto. Qed.
  Lemma add_floats leaf0 id0 w : only_floats w -> graph_conforms G leaf0 id0 py_key w ->
    graph_conforms G (fun t v => leaf0 t v /\ ~ is_int v) id0 py_key w.
  Proof.
    intros O C. pose proof (graph_where G _ _ _ _ _ C O) as H. eapply graph_mono; [| |exact H]; [|auto].
    intros t v [L A]. split; [exact L|]. intros [z ->]. inversion A. assumption.
  Qed.
  Lemma add_plain leaf0 id0 w : plain G w -> graph_conforms G leaf0 id0 py_key w ->
    graph_conforms G (fun t v => leaf0 t v /\ plain_number t v) id0 py_key w.
  Proof. intros P C. eapply graph_both; eassumption. Qed.

  (** *** What is accepted on the other side *)
  Section Cross.
    Variables l l' : list (str * jval).
    Hypothesis SD : same_doc (JObj l) (JObj l').
    Hypothesis W : json_wf (JObj l).
    Hypothesis W' : json_wf (JObj l').

    Lemma cross_py_go : plain G (JObj l) -> only_floats (JObj l') ->
      texts_agree G (py_leaf PX S) (go_leaf GX) (py_id_ok PX) (go_id_ok GX) (JObj l) -> py_ok (JObj l) -> go_ok (JObj l').
    Proof.
      intros P O T C. refine (crossed G _ _ _ _ plain_number (fun _ v => ~ is_int v) _ _ (py_other PX S) (go_other GX) _ T C P _ SD W W').
      - intros t v v' N SV P1 P2 L. eapply num_py_go; eassumption.
      - intros leaf0 id0. apply add_floats. exact O.
    Qed.
    Lemma cross_py_cpp : plain G (JObj l) ->
      texts_agree G (py_leaf PX S) (cpp_leaf CX) (py_id_ok PX) (cpp_id_ok CX) (JObj l) -> py_ok (JObj l) -> cpp_ok (JObj l').
    Proof.
      intros P T C. refine (crossed G _ _ _ _ plain_number (fun _ v => True) _ _ (py_other PX S) (cpp_other CX) _ T C P _ SD W W').
      - intros t v v' N SV P1 P2 L. eapply num_py_cpp; eassumption.
      - intros leaf0 id0. apply add_nothing.
    Qed.
    Lemma cross_go_py : plain G (JObj l') ->
      texts_agree G (go_leaf GX) (py_leaf PX S) (go_id_ok GX) (py_id_ok PX) (JObj l) -> go_ok (JObj l) -> py_ok (JObj l').
    Proof.
      intros P T C. refine (crossed G _ _ _ _ (fun _ _ => True) plain_number _ _ (go_other GX) (py_other PX S) _ T C (anything _ _ _ C) _ SD W W').
      - intros t v v' N SV P1 P2 L. eapply num_go_py; eassumption.
      - intros leaf0 id0. apply add_plain. exact P.
    Qed.
    Lemma cross_go_cpp :
      texts_agree G (go_leaf GX) (cpp_leaf CX) (go_id_ok GX) (cpp_id_ok CX) (JObj l) -> go_ok (JObj l) -> cpp_ok (JObj l').
    Proof.
      intros T C. refine (crossed G _ _ _ _ (fun _ _ => True) (fun _ _ => True) _ _ (go_other GX) (cpp_other CX) _ T C (anything _ _ _ C) _ SD W W').
      - intros t v v' N SV P1 P2 L. eapply num_go_cpp; eassumption.
      - intros leaf0 id0. apply add_nothing.
    Qed.
    Lemma cross_cpp_py : plain G (JObj l') ->
      texts_agree G (cpp_leaf CX) (py_leaf PX S) (cpp_id_ok CX) (py_id_ok PX) (JObj l) -> cpp_ok (JObj l) -> py_ok (JObj l').
    Proof.
      intros P T C. refine (crossed G _ _ _ _ (fun _ _ => True) plain_number _ _ (cpp_other CX) (py_other PX S) _ T C (anything _ _ _ C) _ SD W W').
      - intros t v v' N SV P1 P2 L. eapply num_cpp_py; eassumption.
      - intros leaf0 id0. apply add_plain. exact P.
    Qed.
    Lemma cross_cpp_go : only_floats (JObj l') ->
      texts_agree G (cpp_leaf CX) (go_leaf GX) (cpp_id_ok CX) (go_id_ok GX) (JObj l) -> cpp_ok (JObj l) -> go_ok (JObj l').
    Proof.
      intros O T C. refine (crossed G _ _ _ _ (fun _ _ => True) (fun _ v => ~ is_int v) _ _ (cpp_other CX) (go_other GX) _ T C (anything _ _ _ C) _ SD W W').
      - intros t v v' N SV P1 P2 L. eapply num_cpp_go; eassumption.
      - intros leaf0 id0. apply add_floats. exact O.
    Qed.
  End Cross.
End Pairs.

(** ** What Python writes *)
Section Written.
  Variables (X : ext) (S : py_settings).
  Variable G : graph.

  Lemma written_scalar t x v : scalar_wrote X t x v -> v <> JNull.
  Proof. destruct t; cbn; try (destruct x; try contradiction; congruence); intros H; parts; congruence. Qed.

  Lemma wrote_no_null heap v : forall t x, json_wf v -> wrote X G heap t x v -> no_null v.
  Proof.
    induction v as [| | | | |l IH|l IH] using jval_ind'; intros t x W H.
    1: inversion H as [? ? ? Sc A| | | |]; subst; destruct (written_scalar _ _ _ A eq_refl).
    1-4: constructor.
    - rewrite Forall_forall in IH. apply nn_arr.
      inversion H as [? ? ? Sc A|? ? ? xs ? F| | |]; subst.
      { destruct t; try discriminate Sc; cbn in A; try (destruct x; try contradiction; congruence); parts; congruence. }
      intros v Hv. destruct (Forall2_In_r _ _ _ _ F Hv) as (y & _ & Hy). eapply IH; [exact Hv| |exact Hy]. eapply wf_item; eassumption.
    - rewrite Forall_forall in IH. apply nn_obj.
      inversion H as [? ? ? Sc A| |? xs ? F| |? e attrs ? E ND K F]; subst.
      { destruct t; try discriminate Sc; cbn in A; try (destruct x; try contradiction; congruence); parts; congruence. }
      + intros k v Hv. destruct (Forall2_In_r _ _ _ _ F Hv) as ([k' y] & _ & _ & Hy). eapply (IH _ Hv); [|exact Hy]. simpl. eapply wf_member; eassumption.
      + intros k v Hv. destruct (K k) as (p & Hp & <-); [eapply In_keys; exact Hv|].
        destruct (F p Hp) as (y & Ey & [[_ C]|(_ & u & Eu & Hu)]); [exfalso; apply C; eapply In_keys; exact Hv|].
        assert (u = v) by (apply (In_lookup _ _ _ ND) in Hv; congruence). subst u.
        eapply (IH _ Hv); [|exact Hu]. simpl. eapply wf_member; eassumption.
  Qed.

  Lemma fields_no_null heap ps attrs l : json_wf (JObj l) -> NoDup (keys l) ->
    fields_wrote X G heap ps attrs l -> forall p v, In p ps -> In (p_json p, v) l -> no_null v.
  Proof.
    intros W ND F p v Hp Hv. destruct (F p Hp) as (y & Ey & [[_ C]|(_ & u & Eu & Hu)]); [exfalso; apply C; eapply In_keys; exact Hv|].
    assert (u = v) by (apply (In_lookup _ _ _ ND) in Hv; congruence). subst u.
    eapply wrote_no_null; [|exact Hu]. eapply wf_member; eassumption.
  Qed.

  Lemma graph_no_null pg l : json_wf (JObj l) -> graph_wrote X G pg l -> no_null (JObj l).
  Proof.
    intros W (ND & K & F & C). apply nn_obj. intros k v Hv.
    destruct (K k) as [(p & Hp & <-)|(c & Hc & <-)]; [eapply In_keys; exact Hv| |].
    - eapply fields_no_null; eassumption.
    - destruct (C c Hc) as (reg & Er & [[_ N]|(_ & m & Em & HF)]); [exfalso; apply N; eapply In_keys; exact Hv|].
      assert (v = JObj m) by (apply (In_lookup _ _ _ ND) in Hv; congruence). subst v.
      apply nn_obj. intros id u Hu. destruct (Forall2_In_r _ _ _ _ HF Hu) as ([k' a] & _ & _ & i & _ & _ & o & Eo & NDo & Ko & Fo).
      simpl in Eo. subst u. apply nn_obj. intros k v Hv'. destruct (Ko k) as (p & Hp & <-); [eapply In_keys; exact Hv'|].
      eapply fields_no_null; [|exact NDo|exact Fo|exact Hp|exact Hv'].
      eapply wf_member; [|exact Hu]. eapply wf_member; [exact W|exact Hv].
  Qed.

  (** The numbers are plain. *)
  Lemma portable_plain t x v : scalar t = true -> py_portable X S t x -> scalar_wrote X t x v -> plain_number t v.
  Proof.
    intros Sc [C P] A. destruct t; try exact I.
    - destruct P as (z & -> & Hz). cbn in A. subst v. exists z. auto.
    - destruct C as (f & -> & _). cbn in A. subst v. left. eauto.
  Qed.

  Lemma wrote_plain known heap ro v : forall t x, conforms G (py_leaf X S) known t v -> wrote X G heap t x v ->
    sat G (py_portable X S) ro t x -> conforms G plain_number known t v.
  Proof.
    induction v as [| | | | |l IH|l IH] using jval_ind'; intros t x Cf H Sa.
    1-4: inversion H as [? ? ? Sc A| | | |]; subst;
      inversion Sa as [? ? Sc' Po| | | |]; subst; try discriminate Sc; apply conf_scalar; [exact Sc|]; eapply portable_plain; eassumption.
    - inversion H as [? ? ? Sc A| | |? a i Hi|]; subst.
      + inversion Sa as [? ? Sc' Po| | | |]; subst; try discriminate Sc; apply conf_scalar; [exact Sc|]; eapply portable_plain; eassumption.
      + inversion Cf as [? ? Sc| | |? ? K|]; subst; [discriminate Sc|]. apply conf_ref. exact K.
    - rewrite Forall_forall in IH. inversion H as [? ? ? Sc A|? ? ? xs ? F| | |]; subst.
      + inversion Sa as [? ? Sc' Po| | | |]; subst; try discriminate Sc; apply conf_scalar; [exact Sc|]; eapply portable_plain; eassumption.
      + inversion Cf as [? ? Sc|? ? ? ? Sz Cl| | |]; subst; [discriminate Sc|].
        inversion Sa as [? ? Sc' Po|? ? ? ? _ Sx| | |]; subst; [discriminate Sc'|].
        apply conf_array; [exact Sz|]. intros v Hv. destruct (Forall2_In_r _ _ _ _ F Hv) as (y & Hy & HW).
        eapply IH; [exact Hv|apply Cl; exact Hv|exact HW|apply Sx; exact Hy].
    - rewrite Forall_forall in IH. inversion H as [? ? ? Sc A| |? xs ? F| |? e attrs ? E ND K F]; subst.
      + inversion Sa as [? ? Sc' Po| | | |]; subst; try discriminate Sc; apply conf_scalar; [exact Sc|]; eapply portable_plain; eassumption.
      + inversion Cf as [? ? Sc| |? ? Cl| |]; subst; [discriminate Sc|].
        inversion Sa as [? ? Sc' Po| |? ? _ Sx| |]; subst; [discriminate Sc'|].
        apply conf_map. intros k v Hv. destruct (Forall2_In_r _ _ _ _ F Hv) as ([k' y] & Hy & _ & HW).
        eapply (IH _ Hv); [eapply Cl; exact Hv|exact HW|eapply Sx; exact Hy].
      + inversion Cf as [? ? Sc| | | |? e' ? E' Cl]; subst; [discriminate Sc|]. assert (e' = e) by congruence. subst e'.
        inversion Sa as [? ? Sc' Po| | | |? e' ? E'' _ Sx]; subst; [discriminate Sc'|]. assert (e' = e) by congruence. subst e'.
        eapply conf_embed; [exact E|]. intros p Hp. destruct (Cl p Hp) as [Ha|(v & Ev & Nv & Cv)]; [left; exact Ha|right].
        exists v. split; [exact Ev|]. split; [exact Nv|]. destruct (F p Hp) as (y & Ey & Hy). destruct (Sx p Hp) as (y' & Ey' & Hy').
        assert (y' = y) by congruence. subst y'.
        destruct Hy as [[-> C]|(Ny & u & Eu & Hu)]; [exfalso; apply C; apply lookup_In in Ev; eapply In_keys; exact Ev|].
        assert (u = v) by congruence. subst u. destruct Hy' as [[C _]|Hy']; [contradiction|].
        eapply (IH _ (lookup_In _ _ _ Ev)); eassumption.
  Qed.

  Lemma fields_plain known heap ro ps attrs l : fields_conform G (py_leaf X S) known ps l ->
    fields_wrote X G heap ps attrs l -> attrs_sat G (py_portable X S) ro ps attrs -> fields_conform G plain_number known ps l.
  Proof.
    intros Cf F [_ Sx] p Hp. destruct (Cf p Hp) as [Ha|(v & Ev & Nv & Cv)]; [left; exact Ha|right].
    exists v. split; [exact Ev|]. split; [exact Nv|]. destruct (F p Hp) as (y & Ey & Hy). destruct (Sx p Hp) as (y' & Ey' & Hy').
    assert (y' = y) by congruence. subst y'.
    destruct Hy as [[-> C]|(Ny & u & Eu & Hu)]; [exfalso; apply C; apply lookup_In in Ev; eapply In_keys; exact Ev|].
    assert (u = v) by congruence. subst u. destruct Hy' as [[C _]|Hy']; [contradiction|]. eapply wrote_plain; eassumption.
  Qed.

  Lemma graph_plain pg l : graph_sat X G (py_portable X S) pg -> graph_wrote X G pg l ->
    graph_conforms G (py_leaf X S) (py_id_ok X) py_key (JObj l) -> plain G (JObj l).
  Proof.
    intros (Sa & Sr & Si) (ND & K & F & C) (l0 & [= <-] & Hc & Hf). exists l. split; [reflexivity|]. split.
    - intros c Hin. destruct (Hc c Hin) as [E|(m & Em & Hm)]; [left; exact E|right]. exists m. split; [exact Em|].
      intros id v Hv. destruct (Hm id v Hv) as (_ & o & -> & Ho). split; [auto|]. exists o. split; [reflexivity|].
      destruct (C c Hin) as (reg & Er & [[_ N]|(_ & m' & Em' & HF)]); [exfalso; apply N; apply lookup_In in Em; eapply In_keys; exact Em|].
      assert (m' = m) by congruence. subst m'. destruct (Forall2_In_r _ _ _ _ HF Hv) as ([k' a] & Ha & Hk & i & Hi & Hid & o' & [= <-] & _ & _ & Fo).
      simpl in *. eapply fields_plain; [exact Ho|exact Fo|]. eapply Si; eassumption.
    - eapply fields_plain; eassumption.
  Qed.
End Written.
