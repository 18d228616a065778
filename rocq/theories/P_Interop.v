(** Proofs about documents and graphs shared by the languages. *)
From Coq Require Import String List ZArith NArith Bool Lia Floats.SpecFloat.
From Verif Require Import Base M_Naming M_Schema M_Num M_PyGen M_GoGen M_CppGen
  S_Conform S_Common S_PyGen S_GoGen S_CppGen S_Interop P_Common P_PyClean.
Import ListNotations.
Local Open Scope nat_scope.

(** ** Well-formed and same documents *)

Lemma wf_member l k v : json_wf (JObj l) -> In (k, v) l -> json_wf v.
Proof. intros H. inversion H; subst; eauto. Qed.
Lemma wf_lookup l k v : json_wf (JObj l) -> lookup k l = Some v -> json_wf v.
Proof. intros H E. apply lookup_In in E. eapply wf_member; eauto. Qed.
Lemma wf_keys l : json_wf (JObj l) -> NoDup (keys l).
Proof. intros H. inversion H; subst; assumption. Qed.
Lemma wf_item l v : json_wf (JArr l) -> In v l -> json_wf v.
Proof. intros H. inversion H; subst; eauto. Qed.

Lemma same_refl v : json_wf v -> same_doc v v.
Proof.
  induction v as [| | | | |l IH|l IH] using jval_ind'; intros W; try constructor.
  - rewrite Forall_forall in IH. assert (Wl : forall v, In v l -> json_wf v) by exact (fun v => wf_item l v W).
    clear W. induction l as [|v l IHl]; constructor.
    + apply IH; [left; reflexivity|apply Wl; left; reflexivity].
    + apply IHl; intros; [apply IH|apply Wl]; try right; auto.
  - tauto.
  - intros k v v' H H'. rewrite Forall_forall in IH.
    assert (v' = v).
    { apply In_lookup in H; [|eapply wf_keys; eauto]. apply In_lookup in H'; [|eapply wf_keys; eauto]. congruence. }
    subst v'. apply (IH _ H). eapply wf_member; eauto.
Qed.

Lemma same_sym v : forall v', same_doc v v' -> same_doc v' v.
Proof.
  induction v as [| | | | |l IH|l IH] using jval_ind'; intros v' H; inversion H as [| | | | | | |? ? HF|? ? HK HV]; subst; try (constructor; assumption).
  - apply sd_arr. clear H. revert l' HF IH. induction l as [|a l IHl]; intros l' HF IH; inversion HF; subst; constructor.
    + inversion IH; subst. auto.
    + inversion IH; subst. auto.
  - apply sd_obj; [intros; symmetry; apply HK|]. intros k v v' H1 H2. rewrite Forall_forall in IH.
    apply (IH _ H2). eapply HV; eauto.
Qed.

Lemma same_lookup l l' k : json_wf (JObj l) -> json_wf (JObj l') -> same_doc (JObj l) (JObj l') ->
  (lookup k l = None /\ lookup k l' = None) \/
  exists v v', lookup k l = Some v /\ lookup k l' = Some v' /\ same_doc v v'.
Proof.
  intros W W' H. inversion H as [| | | | | | | |? ? HK HV]; subst.
  destruct (lookup k l) as [v|] eqn:E.
  - assert (Hk : In k (keys l')) by (apply HK; eapply In_keys; apply lookup_In; exact E).
    apply keys_In in Hk as [v' Hv']. right. exists v, v'. split; [reflexivity|]. split.
    + apply In_lookup; [apply wf_keys; exact W'|exact Hv'].
    + eapply HV; [apply lookup_In; exact E|exact Hv'].
  - left. split; [reflexivity|]. apply lookup_None. intros C. apply HK in C. now apply lookup_None in E.
Qed.

Lemma same_null v : same_doc v JNull -> v = JNull.
Proof. intros H. inversion H; reflexivity. Qed.
Lemma null_same v : same_doc JNull v -> v = JNull.
Proof. intros H. inversion H; reflexivity. Qed.

Ltac wfm :=
  match goal with
  | W : json_wf (JObj ?l), H : In (?k, ?v) ?l |- _ => solve [exact (wf_member l k v W H)]
  | W : json_wf (JObj ?l), H : lookup ?k ?l = Some ?v |- _ => solve [exact (wf_lookup l k v W H)]
  end.

(** ** Conforming documents *)

Section Graph.
  Variable G : graph.

  Lemma class_props c : In c (g_classes G) -> In (c_props c) (composites G).
  Proof. intros H. unfold composites. rewrite !in_app_iff. left. now apply in_map. Qed.
  Lemma embed_props n e : find_embed G n = Some e -> In (e_props e) (composites G).
  Proof. intros H. apply find_some in H as [H _]. unfold composites. rewrite !in_app_iff. right. left. now apply in_map. Qed.
  Lemma graph_props : In (g_props G) (composites G).
  Proof. unfold composites. rewrite !in_app_iff. right. right. left. reflexivity. Qed.

  Lemma class_found n c : find_class G n = Some c -> In c (g_classes G) /\ c_name c = n.
  Proof. intros H. apply find_some in H as [H E]. apply str_eqb_eq in E. auto. Qed.
  Lemma found_class c : NoDup (map c_name (g_classes G)) -> In c (g_classes G) -> find_class G (c_name c) = Some c.
  Proof.
    intros ND H. unfold find_class. revert H ND. induction (g_classes G) as [|d cs IH]; intros H ND; [destruct H|].
    simpl in *. inversion ND as [|? ? Hni Hnd]; subst. destruct H as [->|H]; [rewrite str_eqb_refl; reflexivity|].
    destruct (str_eqb (c_name d) (c_name c)) eqn:E; [|auto]. apply str_eqb_eq in E.
    exfalso. apply Hni. rewrite E. now apply in_map.
  Qed.

  Lemma element_scalar t : scalar t = true -> element t = t.
  Proof. destruct t; try discriminate; reflexivity. Qed.

  Section Transfer.
    Variable leaf : ty -> jval -> Prop.
    Variable O : str -> Prop.

    Definition lifted (t : ty) (v' : jval) : Prop :=
      scalar_in G t /\ exists v, same_doc v v' /\ leaf t v /\ forall s, occurs s v -> O s.

    Lemma transfer known v : forall t v', conforms G leaf known t v -> same_doc v v' -> json_wf v -> json_wf v' ->
      (forall s, occurs s v -> O s) -> scalar_in G (element t) -> conforms G lifted known t v'.
    Proof.
      induction v as [| | | | |l IH|l IH] using jval_ind'; intros t v' C SD W W' HO HT.
      1-4: inversion C as [? ? S L| | | |]; subst; apply conf_scalar; [exact S|]; rewrite (element_scalar t S) in HT;
        (split; [exact HT|]); eexists; (split; [exact SD|]); split; [exact L|exact HO].
      - inversion C as [? ? S L| | |n id K|]; subst.
        + apply conf_scalar; [exact S|]. rewrite (element_scalar t S) in HT. split; [exact HT|].
          eexists. split; [exact SD|]. split; [exact L|exact HO].
        + inversion SD; subst. apply conf_ref. exact K.
      - inversion C as [? ? S L|t' mn mx l0 Sz Cl| | |]; subst.
        + apply conf_scalar; [exact S|]. rewrite (element_scalar t S) in HT. split; [exact HT|].
          eexists. split; [exact SD|]. split; [exact L|exact HO].
        + inversion SD as [| | | | | | |? l' HF|]; subst. apply conf_array.
          * rewrite <- (Forall2_len _ _ _ HF). exact Sz.
          * intros v' Hv'. assert (HO' : forall v s, In v l -> occurs s v -> O s) by (intros; apply HO; eapply oc_arr; eauto).
            assert (Wl : forall v, In v l -> json_wf v) by exact (fun v => wf_item l v W).
            assert (Wl' : forall v, In v l' -> json_wf v) by exact (fun v => wf_item l' v W').
            assert (exists v, In v l /\ same_doc v v') as (v & Hv & SV).
            { clear -HF Hv'. induction HF as [|a b l l' H _ IH]; [destruct Hv'|].
              destruct Hv' as [->|Hv']; [exists a; split; [left; reflexivity|exact H]|].
              destruct (IH Hv') as (v & Hv & S). exists v. split; [right; exact Hv|exact S]. }
            rewrite Forall_forall in IH. apply (IH v Hv t'); auto. intros s Hs. eapply HO'; eauto.
      - inversion C as [? ? S L| |t' l0 Cl| |n e l0 E Cl]; subst.
        + apply conf_scalar; [exact S|]. rewrite (element_scalar t S) in HT. split; [exact HT|].
          eexists. split; [exact SD|]. split; [exact L|exact HO].
        + inversion SD as [| | | | | | | |? l' HK HV]; subst. apply conf_map. intros k v' Hv'.
          assert (Hk : In k (keys l)) by (apply HK; eapply In_keys; exact Hv'). apply keys_In in Hk as [v Hv].
          rewrite Forall_forall in IH. apply (IH _ Hv t').
          * eapply Cl. exact Hv.
          * eapply HV; eauto.
          * wfm.
          * wfm.
          * intros s Hs. apply HO. eapply oc_obj; eauto.
          * exact HT.
        + assert (exists l', v' = JObj l') as [l' ->] by (inversion SD; eauto).
          apply conf_embed with (e := e); [exact E|]. intros p Hp.
          destruct (same_lookup l l' (p_json p) W W' SD) as [[E1 E2]|(v & v' & E1 & E2 & SV)].
          * destruct (Cl p Hp) as [[Ho _]|(v & Ev & _)]; [|congruence]. left. split; [exact Ho|]. left. exact E2.
          * destruct (Cl p Hp) as [[Ho [Ha|Ha]]|(w & Ev & Nv & Cv)]; [congruence| |].
            -- assert (v = JNull) by congruence. subst v. apply null_same in SV. subst v'. left. split; [exact Ho|]. right. exact E2.
            -- assert (w = v) by congruence. subst w. right. exists v'. split; [exact E2|]. split.
               { intros ->. apply same_null in SV. contradiction. }
               rewrite Forall_forall in IH. pose proof (lookup_In _ _ _ E1) as Hv. apply (IH _ Hv (p_type p)); auto.
               ++ wfm.
               ++ wfm.
               ++ intros s Hs. apply HO. eapply oc_obj; eauto.
               ++ exists (e_props e), p. split; [eapply embed_props; exact E|]. auto.
    Qed.

    Lemma transfer_fields known ps l l' : In ps (composites G) ->
      fields_conform G leaf known ps l -> same_doc (JObj l) (JObj l') -> json_wf (JObj l) -> json_wf (JObj l') ->
      (forall s, occurs s (JObj l) -> O s) -> fields_conform G lifted known ps l'.
    Proof.
      intros Hps Cl SD W W' HO p Hp.
      destruct (same_lookup l l' (p_json p) W W' SD) as [[E1 E2]|(v & v' & E1 & E2 & SV)].
      - destruct (Cl p Hp) as [[Ho _]|(v & Ev & _)]; [|congruence]. left. split; [exact Ho|]. left. exact E2.
      - destruct (Cl p Hp) as [[Ho [Ha|Ha]]|(w & Ev & Nv & Cv)]; [congruence| |].
        + assert (v = JNull) by congruence. subst v. apply null_same in SV. subst v'. left. split; [exact Ho|]. right. exact E2.
        + assert (w = v) by congruence. subst w. right. exists v'. split; [exact E2|]. split.
          { intros ->. apply same_null in SV. contradiction. }
          eapply transfer; [exact Cv|exact SV| | | |].
          * eapply wf_lookup; [|exact E1]. exact W.
          * wfm.
          * intros s Hs. apply HO. eapply oc_obj; [apply lookup_In; exact E1|exact Hs].
          * exists ps, p. auto.
    Qed.

    Variable id_ok : str -> str -> Prop.
    Variable key : cls -> str.

    Lemma transfer_graph l l' : graph_conforms G leaf id_ok key (JObj l) ->
      same_doc (JObj l) (JObj l') -> json_wf (JObj l) -> json_wf (JObj l') ->
      (forall s, occurs s (JObj l) -> O s) ->
      graph_conforms G lifted (fun p id => id_ok p id /\ O id) key (JObj l').
    Proof.
      intros (l0 & [= <-] & Hc & Hf) SD W W' HO. exists l'. split; [reflexivity|].
      assert (HL : forall n id, listed G key l n id -> listed G key l' n id).
      { intros n id (c & m & E & Em & Hid).
        destruct (same_lookup l l' (key c) W W' SD) as [[E1 _]|(v & v' & E1 & E2 & SV)]; [congruence|].
        assert (v = JObj m) by congruence. subst v. inversion SV as [| | | | | | | |? m' HK HV]; subst.
        exists c, m'. split; [exact E|]. split; [exact E2|]. now apply HK. }
      assert (HM : forall ps o, fields_conform G lifted (listed G key l) ps o -> fields_conform G lifted (listed G key l') ps o).
      { intros ps o H p Hp. destruct (H p Hp) as [H'|(v & Ev & Nv & Cv)]; [left; exact H'|right].
        exists v. split; [exact Ev|]. split; [exact Nv|]. eapply conforms_mono; [|exact HL|exact Cv]. auto. }
      split.
      - intros c Hin. destruct (same_lookup l l' (key c) W W' SD) as [[E1 E2]|(v & v' & E1 & E2 & SV)]; [left; exact E2|].
        destruct (Hc c Hin) as [E|(m & Em & Hm)]; [congruence|]. assert (v = JObj m) by congruence. subst v.
        inversion SV as [| | | | | | | |? m' HK HV]; subst. right. exists m'. split; [exact E2|].
        intros id v' Hv'. assert (Hk : In id (keys m)) by (apply HK; eapply In_keys; exact Hv'). apply keys_In in Hk as [v Hv].
        destruct (Hm id v Hv) as (Hid & o & -> & Ho). pose proof (HV _ _ _ Hv Hv') as SO.
        inversion SO as [| | | | | | | |? o' HK' HV']; subst. split.
        + intros p Ep. split; [apply Hid; exact Ep|]. apply HO. eapply oc_obj; [apply lookup_In; exact E1|]. eapply oc_key. exact Hv.
        + exists o'. split; [reflexivity|]. apply HM. eapply transfer_fields; [apply class_props; exact Hin|exact Ho|exact SO| | |].
          * eapply wf_member; [eapply wf_lookup; [exact W|exact E1]|exact Hv].
          * eapply wf_member; [eapply wf_lookup; [exact W'|exact E2]|exact Hv'].
          * intros s Hs. apply HO. eapply oc_obj; [apply lookup_In; exact E1|]. eapply oc_obj; eauto.
      - apply HM. eapply transfer_fields; [apply graph_props|exact Hf|exact SD|exact W|exact W'|exact HO].
    Qed.
  End Transfer.

  (** Both conditions on the scalars. *)
  Lemma conforms_both (leaf1 leaf2 : ty -> jval -> Prop) known1 known2 v : forall t,
    conforms G leaf1 known1 t v -> conforms G leaf2 known2 t v ->
    conforms G (fun t v => leaf1 t v /\ leaf2 t v) known1 t v.
  Proof.
    induction v as [| | | | |l IH|l IH] using jval_ind'; intros t C1 C2.
    1-4: inversion C1 as [? ? S L| | | |]; subst; inversion C2 as [? ? S2 L2| | | |]; subst; apply conf_scalar; auto.
    - inversion C1 as [? ? S L| | |n id K|]; subst; inversion C2 as [? ? S2 L2| | |? ? K2|]; subst; try discriminate;
        [apply conf_scalar; auto|apply conf_ref; auto].
    - rewrite Forall_forall in IH.
      inversion C1 as [? ? S L|? ? ? ? Sz Cl| | |]; subst; inversion C2 as [? ? S2 L2|? ? ? ? Sz2 Cl2| | |]; subst; try discriminate;
        [apply conf_scalar; auto|apply conf_array; auto].
    - rewrite Forall_forall in IH.
      inversion C1 as [? ? S L| |? ? Cl| |? e ? E Cl]; subst; inversion C2 as [? ? S2 L2| |? ? Cl2| |? e2 ? E2 Cl2]; subst; try discriminate.
      + apply conf_scalar; auto.
      + apply conf_map. intros k v Hv. apply (IH _ Hv); eauto.
      + rewrite E in E2. injection E2 as <-. apply conf_embed with (e := e); [exact E|]. intros p Hp.
        destruct (Cl p Hp) as [H|(v & Ev & Nv & Cv)]; [left; exact H|].
        destruct (Cl2 p Hp) as [[_ [H|H]]|(w & Ew & Nw & Cw)]; [congruence|congruence|].
        assert (w = v) by congruence. subst w. right. exists v. split; [exact Ev|]. split; [exact Nv|].
        apply (IH _ (lookup_In _ _ _ Ev)); assumption.
  Qed.

  Lemma fields_both (leaf1 leaf2 : ty -> jval -> Prop) known1 known2 ps l :
    fields_conform G leaf1 known1 ps l -> fields_conform G leaf2 known2 ps l ->
    fields_conform G (fun t v => leaf1 t v /\ leaf2 t v) known1 ps l.
  Proof.
    intros Cl Cl2 p Hp.
    destruct (Cl p Hp) as [H|(v & Ev & Nv & Cv)]; [left; exact H|].
    destruct (Cl2 p Hp) as [[_ [H|H]]|(w & Ew & Nw & Cw)]; [congruence|congruence|].
    assert (w = v) by congruence. subst w. right. exists v. split; [exact Ev|]. split; [exact Nv|].
    eapply conforms_both; eassumption.
  Qed.

  Lemma graph_both (leaf1 leaf2 : ty -> jval -> Prop) id1 id2 key v :
    graph_conforms G leaf1 id1 key v -> graph_conforms G leaf2 id2 key v ->
    graph_conforms G (fun t v => leaf1 t v /\ leaf2 t v) id1 key v.
  Proof.
    intros (l & -> & Hc & Hf) (l2 & [= <-] & Hc2 & Hf2). exists l. split; [reflexivity|]. split.
    - intros c Hin. destruct (Hc c Hin) as [E|(m & Em & Hm)]; [left; exact E|].
      destruct (Hc2 c Hin) as [E|(m2 & Em2 & Hm2)]; [congruence|]. assert (m2 = m) by congruence. subst m2.
      right. exists m. split; [exact Em|]. intros id v Hv. destruct (Hm id v Hv) as (Hi & o & -> & Ho).
      destruct (Hm2 id _ Hv) as (_ & o2 & [= <-] & Ho2). split; [exact Hi|]. exists o. split; [reflexivity|].
      eapply fields_both; eassumption.
    - eapply fields_both; eassumption.
  Qed.

  Lemma graph_mono (leaf leaf' : ty -> jval -> Prop) (id_ok id_ok' : str -> str -> Prop) key v :
    (forall t v, leaf t v -> leaf' t v) ->
    (forall c p id, In c (g_classes G) -> c_id_pattern c = Some p -> id_ok p id -> id_ok' p id) ->
    graph_conforms G leaf id_ok key v -> graph_conforms G leaf' id_ok' key v.
  Proof.
    intros HL HI (l & -> & Hc & Hf). exists l. split; [reflexivity|].
    assert (HM : forall ps o, fields_conform G leaf (listed G key l) ps o -> fields_conform G leaf' (listed G key l) ps o).
    { intros ps o H p Hp. destruct (H p Hp) as [H'|(w & Ev & Nv & Cv)]; [left; exact H'|right].
      exists w. split; [exact Ev|]. split; [exact Nv|]. eapply conforms_mono; [exact HL| |exact Cv]. auto. }
    split; [|apply HM; exact Hf]. intros c Hin. destruct (Hc c Hin) as [E|(m & Em & Hm)]; [left; exact E|].
    right. exists m. split; [exact Em|]. intros id w Hv. destruct (Hm id w Hv) as (Hi & o & -> & Ho).
    split; [intros p Ep; eapply HI; eauto|]. exists o. split; [reflexivity|]. apply HM. exact Ho.
  Qed.

  (** ** Graphs of any language represented by a document *)
  Section Rep.
    Variable L : lang.
    Variable rep0 : ty -> jval -> l_val L -> Prop.
    Variable points : str -> str -> addr -> Prop.

    Inductive urep : ty -> jval -> uval (l_val L) -> Prop :=
    | ur_scalar t v a : scalar t = true -> rep0 t v a -> urep t v (UAtom a)
    | ur_array t mn mx l xs : Forall2 (urep t) l xs -> urep (TArray t mn mx) (JArr l) (UList xs)
    | ur_map t l xs :
        NoDup (keys xs) -> (forall k, In k (keys l) <-> In k (keys xs)) ->
        (forall k v x, In (k, v) l -> In (k, x) xs -> urep t v x) ->
        urep (TMap t) (JObj l) (UMap xs)
    | ur_ref n id a : points n id a -> urep (TClass n) (JStr id) (URef a)
    | ur_embed n e l fields :
        find_embed G n = Some e ->
        (forall p, In p (e_props e) ->
           (absent (p_json p) l /\ lookup (l_name L (p_name p)) fields = Some UNil) \/
           (exists v x, lookup (p_json p) l = Some v /\ v <> JNull /\
                        lookup (l_name L (p_name p)) fields = Some x /\ urep (p_type p) v x)) ->
        urep (TEmbed n) (JObj l) (UStruct fields).

    Definition ufields (ps : list prop) (l : list (str * jval)) (fields : list (str * uval (l_val L))) : Prop :=
      forall p, In p ps ->
        (absent (p_json p) l /\ lookup (l_name L (p_name p)) fields = Some UNil) \/
        (exists v x, lookup (p_json p) l = Some v /\ v <> JNull /\
                     lookup (l_name L (p_name p)) fields = Some x /\ urep (p_type p) v x).
  End Rep.

  Definition udesignates {A} (g : ugraph A) (n id : str) (a : addr) : Prop :=
    exists c, find_class G n = Some c /\ lookup id (ug_registry g c) = Some a.

  Definition ugraph_rep (L : lang) (rep0 : ty -> jval -> l_val L -> Prop) (l : list (str * jval)) (g : ugraph (l_val L)) : Prop :=
    ufields L rep0 (udesignates g) (g_props G) l (ug_fields g) /\
    forall c, In c (g_classes G) ->
      NoDup (keys (ug_registry g c)) /\
      ((lookup (py_key c) l = None /\ ug_registry g c = []) \/
       exists m, lookup (py_key c) l = Some (JObj m) /\
         (forall id, In id (keys m) <-> In id (keys (ug_registry g c))) /\
         forall id v a, In (id, v) m -> In (id, a) (ug_registry g c) ->
           exists o i, v = JObj o /\ nth_error (ug_heap g) a = Some i /\
             u_class i = c_name c /\ u_id i = id /\
             ufields L rep0 (udesignates g) (c_props c) o (u_fields i)).

  Section Two.
    Variables L L' : lang.
    Variable rep0 : ty -> jval -> l_val L -> Prop.
    Variable rep0' : ty -> jval -> l_val L' -> Prop.
    Hypothesis Hscalar : forall t v v' a b, scalar t = true -> same_doc v v' -> rep0 t v a -> rep0' t v' b ->
      same_scalar L L' t a b.

    Section Values.
      Variables P P' : str -> str -> addr -> Prop.
      Variable same : addr -> addr -> Prop.
      Hypothesis Hsame : forall n id a b, P n id a -> P' n id b -> same a b.

      Lemma rep_same v : forall t v' x y, same_doc v v' -> json_wf v -> json_wf v' ->
        urep L rep0 P t v x -> urep L' rep0' P' t v' y -> same_value L L' G same t x y.
      Proof.
        induction v as [| | | | |l IH|l IH] using jval_ind'; intros t v' x y SD W W' R R'.
        1-4: inversion R as [? ? ? S A| | | |]; subst; inversion R' as [? ? ? S' A'| | | |]; subst; try discriminate;
          apply sv_scalar; [exact S|eapply Hscalar; eassumption].
        - inversion R as [? ? ? S A| | |? ? a Pa|]; subst; inversion R' as [? ? ? S' A'| | |? ? b Pb|]; subst; try discriminate.
          + apply sv_scalar; [exact S|eapply Hscalar; eassumption].
          + inversion SD; subst. apply sv_ref. eapply Hsame; eassumption.
        - rewrite Forall_forall in IH.
          inversion R as [? ? ? S A|? ? ? ? xs F| | |]; subst; inversion R' as [? ? ? S' A'|? ? ? l' ys F'| | |]; subst; try discriminate.
          + apply sv_scalar; [exact S|eapply Hscalar; eassumption].
          + inversion SD as [| | | | | | |? ? HF|]; subst. apply sv_array.
            assert (Wl : forall v, In v l -> json_wf v) by exact (fun v => wf_item l v W).
            assert (Wl' : forall v, In v l' -> json_wf v) by exact (fun v => wf_item l' v W').
            clear R R' SD W W'. revert l' ys HF F' Wl'. induction F as [|v a l xs Ha F IHF]; intros l' ys HF F' Wl'.
            * inversion HF; subst. inversion F'; subst. constructor.
            * inversion HF as [|? v' ? l2 Sv HF2]; subst. inversion F' as [|? b ? ys2 Hb F2]; subst. constructor.
              -- eapply (IH v); [left; reflexivity|exact Sv| | |exact Ha|exact Hb]; [apply Wl|apply Wl']; left; reflexivity.
              -- eapply IHF; [| |exact HF2|exact F2|]; intros.
                 ++ eapply IH; try eassumption. right. assumption.
                 ++ apply Wl. right. assumption.
                 ++ apply Wl'. right. assumption.
        - rewrite Forall_forall in IH.
          inversion R as [? ? ? S A| |? ? xs N K F| |? e ? fs E F]; subst;
            inversion R' as [? ? ? S' A'| |? l' ys N' K' F'| |? e' l' fs' E' F']; subst; try discriminate.
          + apply sv_scalar; [exact S|eapply Hscalar; eassumption].
          + inversion SD as [| | | | | | | |? ? HK HV]; subst. apply sv_map; auto.
            * intros k. rewrite <- K, <- K'. apply HK.
            * intros k a b Ha Hb. destruct (keys_In k l) as [v Hv]; [apply K; eapply In_keys; exact Ha|].
              destruct (keys_In k l') as [v' Hv']; [apply K'; eapply In_keys; exact Hb|].
              eapply (IH _ Hv); [eapply HV; eassumption| | |eapply F; eassumption|eapply F'; eassumption]; wfm.
          + rewrite E in E'. injection E' as <-. apply sv_embed with (e := e); [exact E|]. intros p Hp.
            destruct (same_lookup l l' (p_json p) W W' SD) as [[E1 E2]|(v & v' & E1 & E2 & SV)].
            * destruct (F p Hp) as [[_ X]|(v & a & Ev & _)]; [|congruence].
              destruct (F' p Hp) as [[_ Y]|(v & a & Ev & _)]; [|congruence]. exists UNil, UNil. auto.
            * destruct (F p Hp) as [[[C|C] X]|(w & a & Ev & Nv & X & Ra)]; [congruence| |].
              -- assert (v = JNull) by congruence. subst v. apply null_same in SV. subst v'.
                 destruct (F' p Hp) as [[_ Y]|(w & b & Ev & Nv & _)]; [|congruence]. exists UNil, UNil. auto.
              -- assert (w = v) by congruence. subst w.
                 destruct (F' p Hp) as [[[C|C] Y]|(w & b & Ew & Nw & Y & Rb)]; [congruence| |].
                 { assert (v' = JNull) by congruence. subst v'. apply same_null in SV. contradiction. }
                 assert (w = v') by congruence. subst w. exists a, b. split; [exact X|]. split; [exact Y|]. right.
                 eapply (IH _ (lookup_In _ _ _ E1)); [exact SV| | |exact Ra|exact Rb]; wfm.
      Qed.

      Lemma fields_same ps l l' xs ys : same_doc (JObj l) (JObj l') -> json_wf (JObj l) -> json_wf (JObj l') ->
        ufields L rep0 P ps l xs -> ufields L' rep0' P' ps l' ys -> same_fields L L' G same ps xs ys.
      Proof.
        intros SD W W' F F' p Hp.
        destruct (same_lookup l l' (p_json p) W W' SD) as [[E1 E2]|(v & v' & E1 & E2 & SV)].
        - destruct (F p Hp) as [[_ X]|(v & a & Ev & _)]; [|congruence].
          destruct (F' p Hp) as [[_ Y]|(v & a & Ev & _)]; [|congruence]. exists UNil, UNil. auto.
        - destruct (F p Hp) as [[[C|C] X]|(w & a & Ev & Nv & X & Ra)]; [congruence| |].
          + assert (v = JNull) by congruence. subst v. apply null_same in SV. subst v'.
            destruct (F' p Hp) as [[_ Y]|(w & b & Ev & Nv & _)]; [|congruence]. exists UNil, UNil. auto.
          + assert (w = v) by congruence. subst w.
            destruct (F' p Hp) as [[[C|C] Y]|(w & b & Ew & Nw & Y & Rb)]; [congruence| |].
            { assert (v' = JNull) by congruence. subst v'. apply same_null in SV. contradiction. }
            assert (w = v') by congruence. subst w. exists a, b. split; [exact X|]. split; [exact Y|]. right.
            eapply rep_same; [exact SV| | |exact Ra|exact Rb]; wfm.
      Qed.
    End Values.

    Lemma designates_unique (M : lang) r0 l (g : ugraph (l_val M)) n id n' id' a : ugraph_rep M r0 l g ->
      udesignates g n id a -> udesignates g n' id' a -> n = n' /\ id = id'.
    Proof.
      intros [_ HC] (c & Ec & La) (c' & Ec' & La').
      destruct (class_found _ _ Ec) as [Hc Hn]. destruct (class_found _ _ Ec') as [Hc' Hn'].
      assert (B : forall c id, In c (g_classes G) -> lookup id (ug_registry g c) = Some a ->
                  exists i, nth_error (ug_heap g) a = Some i /\ u_class i = c_name c /\ u_id i = id).
      { clear -HC. intros c id Hc La. destruct (HC c Hc) as [_ [[_ R0]|(m & E & K & Hm)]]; [rewrite R0 in La; discriminate|].
        pose proof (lookup_In _ _ _ La) as Ha.
        destruct (keys_In id m) as [v Hv]; [apply K; eapply In_keys; exact Ha|].
        destruct (Hm id v a Hv Ha) as (o & i & -> & Hi & Hcl & Hid & _). eauto. }
      destruct (B c id Hc La) as (i & Hi & Hcl & Hid). destruct (B c' id' Hc' La') as (i' & Hi' & Hcl' & Hid').
      split; congruence.
    Qed.

    Lemma graphs_same l l' g g' : NoDup (map c_name (g_classes G)) ->
      same_doc (JObj l) (JObj l') -> json_wf (JObj l) -> json_wf (JObj l') ->
      ugraph_rep L rep0 l g -> ugraph_rep L' rep0' l' g' -> same_graph L L' G g g'.
    Proof.
      intros ND SD W W' R R'. pose proof R as [F C]. pose proof R' as [F' C'].
      set (D := udesignates g) in *. set (D' := udesignates g') in *.
      exists (fun a b => exists n id, D n id a /\ D' n id b).
      split; [|split; [|split]].
      - intros a a' b (n & id & H1 & H2) (n' & id' & H1' & H2').
        destruct (designates_unique _ _ _ _ _ _ _ _ _ R' H2 H2') as [<- <-].
        destruct H1 as (c & Ec & La). destruct H1' as (c' & Ec' & La'). congruence.
      - intros a b b' (n & id & H1 & H2) (n' & id' & H1' & H2').
        destruct (designates_unique _ _ _ _ _ _ _ _ _ R H1 H1') as [<- <-].
        destruct H2 as (c & Ec & La). destruct H2' as (c' & Ec' & La'). congruence.
      - eapply fields_same; [|exact SD|exact W|exact W'|exact F|exact F']. intros n id a b H1 H2. exists n, id. auto.
      - intros c Hc. destruct (C c Hc) as [N K]. destruct (C' c Hc) as [N' K'].
        destruct (same_lookup l l' (py_key c) W W' SD) as [[E1 E2]|(v & v' & E1 & E2 & SV)].
        + destruct K as [[_ R0]|(m & E & _)]; [|congruence]. destruct K' as [[_ R0']|(m & E & _)]; [|congruence].
          rewrite R0, R0'. split; [tauto|]. intros ? ? ? [].
        + destruct K as [[E _]|(m & Em & Km & Hm)]; [congruence|]. destruct K' as [[E _]|(m' & Em' & Km' & Hm')]; [congruence|].
          assert (v = JObj m) by congruence. assert (v' = JObj m') by congruence. subst v v'.
          inversion SV as [| | | | | | | |? ? HK HV]; subst.
          split; [intros id; rewrite <- Km, <- Km'; apply HK|].
          intros id a b Ha Hb. destruct (keys_In id m) as [v Hv]; [apply Km; eapply In_keys; exact Ha|].
          destruct (keys_In id m') as [v' Hv']; [apply Km'; eapply In_keys; exact Hb|].
          destruct (Hm id v a Hv Ha) as (o & i & -> & Hi & Hcl & Hid & Rp).
          destruct (Hm' id v' b Hv' Hb) as (o' & j & -> & Hj & Hcl' & Hid' & Rp'). split.
          * exists (c_name c), id. split; exists c; (split; [apply found_class; assumption|]); apply In_lookup; auto.
          * exists i, j. do 6 (split; [assumption|]).
            eapply fields_same; [|exact (HV _ _ _ Hv Hv')| | |exact Rp|exact Rp'].
            -- intros n x a0 b0 H1 H2. exists n, x. auto.
            -- eapply wf_member; [eapply wf_lookup; [exact W|exact E1]|exact Hv].
            -- eapply wf_member; [eapply wf_lookup; [exact W'|exact E2]|exact Hv'].
    Qed.
  End Two.
End Graph.
