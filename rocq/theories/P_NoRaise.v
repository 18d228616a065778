(** The validation of a schema raises no exception, apart from the exceptional documents. *)
From Coq Require Import String List Arith NArith ZArith QArith Bool Lia Permutation Floats.SpecFloat.
From Verif Require Import Base M_Naming M_Schema M_Dec M_Strftime M_Validate S_Conform P_Naming S_Validate P_Validate
  P_ValidateType P_ValidateDoc P_Parse.
Import ListNotations.
Open Scope list_scope.
Local Open Scope nat_scope.

Definition returns {A} (r : res A) : Prop := exists a, r = Ok a.

Lemma returns_Ok {A} (a : A) : returns (Ok a).
Proof. now exists a. Qed.
Lemma returns_bind {A B} (r : res A) (f : A -> res B) : returns r -> (forall a, r = Ok a -> returns (f a)) -> returns (bind r f).
Proof. intros (a & ->) H. cbn [bind]. auto. Qed.
Lemma returns_mapM {A B} (f : A -> res B) l : (forall x, In x l -> returns (f x)) -> returns (mapM f l).
Proof.
  intros H. destruct (mapM_exists f (fun _ _ => True) l) as (ys & E & _); [|now exists ys].
  intros x Hx. destruct (H x Hx) as (y & Hy). eauto.
Qed.

Lemma values_typed_part w v : part w v -> values_typed v -> values_typed w.
Proof.
  intros Hp H l m Hl. apply H. clear H. induction Hp as [|xs u Hu Hp IH|xs k u Hu Hp IH]; [exact Hl | |].
  - eapply part_array; eauto.
  - eapply part_object; eauto.
Qed.

Lemma key_order_returns l ref : In (s_ "type") (keys l) -> returns (validate_key_order l ref).
Proof.
  unfold validate_key_order. destruct (keys l) as [|k0 r]; [contradiction|]. intros H.
  destruct (str_eqb k0 (s_ "type")) eqn:E; cbn [negb]; [|apply returns_Ok]. apply str_eqb_eq in E. subst k0.
  destruct (mem (s_ "description") (s_ "type" :: r)) eqn:Em; [|apply returns_Ok].
  apply mem_In in Em. destruct Em as [Em | Em]; [discriminate|]. destruct r as [|k1 r]; [contradiction|].
  destruct (str_eqb k1 _); apply returns_Ok.
Qed.

Lemma not_noncomposite type l ref re_ok values :
  (type = s_ "array" \/ type = s_ "map" -> returns values) -> returns (logic re_ok type l ref values).
Proof.
  intros Hv. unfold logic.
  repeat match goal with
    | |- returns (if str_eqb type (s_ ?k) then _ else _) =>
        let E := fresh "E" in destruct (str_eqb type (s_ k)) eqn:E; [try apply returns_Ok|]
    end.
  - apply str_eqb_eq in E9. destruct (validate_sizes l ref); [apply returns_Ok | auto].
  - apply str_eqb_eq in E10. auto.
  - replace (mem type NONCOMPOSITE) with false; [apply returns_Ok|]. symmetry. apply mem_not_In. rewrite NONCOMPOSITE_eq.
    cbn [map noncomposite In]. repeat match goal with H : str_eqb _ _ = false |- _ => apply str_eqb_neq in H end. intuition.
Qed.

Lemma json_plural_capital p : starts capital p -> exists k, json_plural p = Ok k.
Proof. intros H. unfold json_plural. rewrite (proj2 (initial_ok p) H). eauto. Qed.

Section NoRaise.
  Variables (re_ok : str -> bool) (ordered : bool).

  Lemma values_object l type ps req : json_wf (JObj l) -> type = s_ "array" \/ type = s_ "map" ->
    lookup type TYPE_TO_SCHEMA = Some (ps, req) -> jvalid (SObject ps req (Some SAny)) (JObj l) = true ->
    exists m, In (s_ "values", JObj m) l.
  Proof.
    intros Hw Ht Hl Hj. apply wf_obj in Hw. destruct Hw as [Hn Hw].
    assert (Hps : In (s_ "values", an_object) ps /\ In (s_ "values") req).
    { destruct Ht as [-> | ->].
      - change (lookup (s_ "array") TYPE_TO_SCHEMA) with
          (Some (base_keys ++ [(s_ "values", an_object); (s_ "minimum_size", SInteger (Some 0%Z));
                               (s_ "maximum_size", SInteger (Some 0%Z))], [s_ "values"])) in Hl.
        injection Hl as <- <-. cbn [In]. auto 10.
      - change (lookup (s_ "map") TYPE_TO_SCHEMA) with (Some (base_keys ++ [(s_ "values", an_object)], [s_ "values"])) in Hl.
        injection Hl as <- <-. cbn [In]. auto 10. }
    apply (jvalid_object ps req (Some SAny) l Hn) in Hj. destruct Hj as (H1 & H2 & _). rewrite Forall_forall in H1, H2.
    assert (Hk := H2 _ (proj2 Hps)). apply keys_value in Hk. destruct Hk as (v & Hv).
    assert (Ho := H1 _ (proj1 Hps) v Hv). cbn [snd] in Ho. apply j_object in Ho; eauto. destruct Ho as (m & ->). eauto.
  Qed.

  Lemma validate_type_returns types v : forall top ref, json_wf v -> values_typed v ->
    (exists l n, v = JObj l /\ In (s_ "type", JStr n) l) -> returns (validate_type re_ok ordered top types ref v).
  Proof.
    induction v as [| | | | |l IH|l IH] using jval_ind'; intros top ref Hw Ht (l' & n & E & Hty); try discriminate.
    injection E as <-. assert (Hw' := Hw). apply wf_obj in Hw'. destruct Hw' as [Hn Hwl]. rewrite validate_type_eq.
    apply returns_bind.
    { destruct (top && ordered); [|apply returns_Ok]. apply key_order_returns. now apply (in_map fst) in Hty. }
    intros [e|] _; [apply returns_Ok|]. rewrite (get_ok l Hn _ _ Hty). cbn [bind]. unfold checks.
    destruct (negb (mem n types)); [apply returns_Ok|].
    destruct (lookup n TYPE_TO_SCHEMA) as [(ps, req)|] eqn:El.
    - destruct (jvalid (SObject ps req (Some SAny)) (JObj l)) eqn:Ej; [|apply returns_Ok].
      destruct (unexpected _ l); [apply returns_Ok|]. apply not_noncomposite. intros Hav.
      destruct (values_object l n ps req Hw Hav El Ej) as (m & Hm). rewrite (In_lookup _ _ _ Hn Hm).
      rewrite Forall_forall in IH. apply (IH (s_ "values", JObj m) Hm); cbn [snd].
      + eauto.
      + eapply values_typed_part; [|exact Ht]. eapply part_object; [exact Hm | constructor].
      + destruct (Ht l m (part_itself _)) as (n' & Hn'); [|exact Hm | eauto].
        unfold of_type. destruct Hav as [-> | ->]; auto.
    - destruct (unexpected _ l); [apply returns_Ok|]. apply not_noncomposite.
      intros [-> | ->]; vm_compute in El; discriminate.
  Qed.

  Lemma properties_return types ref l : json_wf (JObj l) -> values_typed (JObj l) ->
    maybe l "properties" (fun v => jvalid PROPERTIES v = true) -> returns (validate_properties re_ok ordered types ref l).
  Proof.
    intros Hw0 Ht H. assert (Hw := Hw0). apply wf_obj in Hw. destruct Hw as [Hn Hw]. unfold validate_properties.
    rewrite (maybe_lookup l Hn) in H. destruct (lookup (s_ "properties") l) as [v|] eqn:E; [|apply returns_Ok].
    apply lookup_In in E. apply j_properties in H; [|eauto]. destruct H as (fs & -> & H). cbn [fields bind].
    apply returns_bind; [|intros; apply returns_Ok]. apply returns_mapM. intros (k, p) Hin.
    assert (Hp := H _ _ Hin). apply j_property in Hp.
    2:{ assert (Hwf := Hw _ _ E). apply wf_obj in Hwf. eapply (proj2 Hwf); eauto. }
    destruct Hp as (m & -> & _ & A & _). destruct A as (t & Hty & n & -> & _).
    apply returns_bind; [|intros; apply returns_Ok]. apply validate_type_returns.
    - assert (Hwf := Hw _ _ E). apply wf_obj in Hwf. eapply (proj2 Hwf); eauto.
    - eapply values_typed_part; [|exact Ht]. eapply part_object; [exact E|]. eapply part_object; [exact Hin|]. constructor.
    - eauto.
  Qed.

  Lemma name_errors_return ref kind names objs : (forall v, In v objs -> json_wf v /\ exists n, name_of v n) ->
    returns (name_errors ref kind names objs).
  Proof.
    unfold name_errors, enumerate. match goal with |- _ -> returns (fold_left ?f _ _) => set (F := f) end.
    generalize 0, (names, @nil serr). clear names.
    induction objs as [|v objs IH]; intros k st H; [apply returns_Ok|]. cbn [number_from fold_left].
    destruct (H v (or_introl eq_refl)) as (Hw & n & l & -> & Hl). apply wf_obj in Hw. destruct Hw as [Hn _].
    assert (E : exists st', F (Ok st) (k, JObj l) = Ok st').
    { unfold F. cbn [bind fields fst snd]. rewrite (get_ok l Hn _ _ Hl). cbn [bind text]. destruct st. eexists. reflexivity. }
    destruct E as (st' & ->). apply IH. intros w Hv. apply H. now right.
  Qed.

  Theorem validate_returns v ref : json_wf v -> values_typed v -> capital_plurals v ->
    returns (validate re_ok ordered v ref).
  Proof.
    intros Hw0 Ht Hcap. unfold validate. destruct (jvalid GRAPH v) eqn:Ej; cbn [negb]; [|apply returns_Ok].
    apply j_graph in Ej; auto. destruct Ej as (l & -> & S1 & S2 & S3 & S4 & S5 & S6 & S7 & S8 & S9). cbn [fields bind].
    assert (Hw := Hw0). apply wf_obj in Hw. destruct Hw as [Hn Hw].
    assert (Hle : forall k (P : jval -> Prop), maybe l k (fun v => exists cs, v = JArr cs /\ forall c, In c cs -> P c) ->
      exists xs, elements (s_ k) l = Ok xs /\ list_under l k xs /\ forall c, In c xs -> P c).
    { intros k P H. rewrite (maybe_lookup l Hn) in H. destruct (lookup (s_ k) l) as [w|] eqn:E.
      - destruct H as (cs & -> & H). apply lookup_In in E. exists cs. assert (Hu : list_under l k cs) by now left.
        split; [now apply elements_iff | auto].
      - exists []. assert (Hu : list_under l k []) by (right; split; [now apply no_member_lookup | reflexivity]).
        split; [now apply elements_iff|]. split; [exact Hu | contradiction]. }
    destruct (Hle _ _ S7) as (classes & Ec & Hc & Jc). destruct (Hle _ _ S8) as (embeds & Ee & He & Je).
    assert (Wc := elements_wf l "classes" classes Hw0 Hc). assert (We := elements_wf l "embeds" embeds Hw0 He).
    assert (Pc : forall c, In c classes -> part c (JObj l)).
    { intros c Hin. destruct (list_part _ _ _ _ Hc Hin) as (a & Ha & Hx). eapply part_object; [exact Ha|].
      eapply part_array; [exact Hx | constructor]. }
    assert (Pe : forall c, In c embeds -> part c (JObj l)).
    { intros c Hin. destruct (list_part _ _ _ _ He Hin) as (a & Ha & Hx). eapply part_object; [exact Ha|].
      eapply part_array; [exact Hx | constructor]. }
    assert (Kc : forall c, In c classes -> exists m, c = JObj m /\ class_shape m).
    { intros c Hin. apply j_class; auto. }
    assert (Ke : forall c, In c embeds -> exists m, c = JObj m /\ embed_shape m).
    { intros c Hin. apply j_embed; auto. }
    apply returns_bind.
    { unfold validate_top. destruct ordered; [|apply returns_Ok].
      apply member_keys in S2, S3. destruct (keys l) as [|k0 [|k1 r]]; [contradiction | | apply returns_Ok].
      destruct S2 as [E1 | []], S3 as [E2 | []]. rewrite E1 in E2. discriminate. }
    intros top _. apply returns_bind.
    { unfold validate_names. destruct S2 as (n & Hname & n' & -> & _). rewrite (get_ok l Hn _ _ Hname). cbn [bind text].
      rewrite Ec. cbn [bind]. apply returns_bind.
      - apply name_errors_return. intros c Hin. split; [auto|]. destruct (Kc c Hin) as (m & -> & _ & (t & A & t' & -> & _) & _).
        exists t', m. auto.
      - intros st _. rewrite Ee. cbn [bind]. apply returns_bind; [|intros; apply returns_Ok].
        apply name_errors_return. intros c Hin. split; [auto|]. destruct (Ke c Hin) as (m & -> & _ & (t & A & t' & -> & _) & _).
        exists t', m. auto. }
    intros names _. rewrite Ec. cbn [bind]. apply returns_bind.
    { apply returns_mapM. intros (i, c) Hin. apply enumerate_In, nth_error_In in Hin. cbn [fst snd].
      destruct (Kc c Hin) as (m & -> & A). cbn [fields bind]. unfold validate_class.
      destruct A as (_ & _ & _ & _ & _ & A). assert (Wm := Wc _ Hin). apply wf_obj in Wm. rewrite (maybe_lookup m (proj1 Wm)) in A.
      destruct (lookup (s_ "properties") m) as [w|] eqn:E; [|apply returns_Ok]. apply lookup_In in E.
      apply j_properties in A; [|eapply (proj2 Wm); eauto]. destruct A as (fs & -> & _). apply returns_Ok. }
    intros cerrs _. apply returns_bind; [now apply properties_return|].
    intros gperrs _. apply returns_bind.
    { apply returns_mapM. intros (i, c) Hin. apply enumerate_In, nth_error_In in Hin. cbn [fst snd].
      destruct (Kc c Hin) as (m & -> & _ & _ & _ & _ & _ & A). cbn [fields bind]. apply properties_return; auto.
      eapply values_typed_part; eauto. }
    intros cperrs _. rewrite Ee. cbn [bind]. apply returns_bind.
    { apply returns_mapM. intros (i, c) Hin. apply enumerate_In, nth_error_In in Hin. cbn [fst snd].
      destruct (Ke c Hin) as (m & -> & _ & _ & _ & A). cbn [fields bind]. apply properties_return; auto.
      eapply values_typed_part; eauto. }
    intros eperrs _. apply returns_bind; [|intros; apply returns_Ok].
    unfold validate_plurals. destruct (lookup (s_ "classes") l) as [w|] eqn:E; [|apply returns_Ok].
    destruct (lookup (s_ "properties") l) as [ps|] eqn:Ep; [|apply returns_Ok].
    rewrite (maybe_lookup l Hn), E in S7. destruct S7 as (cs & -> & _). cbn [items bind]. apply lookup_In in E.
    assert (classes = cs) by (eapply list_under_unique; [exact Hn | exact Hc | now left]). subst cs.
    apply returns_bind.
    { apply returns_mapM. intros c Hin. destruct (Kc c Hin) as (m & Em & _ & (t & A & t' & -> & _) & _ & B & _).
      destruct (registry_ok c t') as (p & Hp & Er); [auto | exists m; auto | |].
      - exists m. split; [exact Em|]. intros x Hx. destruct (B x Hx) as (u & -> & _). exists u. split; [reflexivity | exact I].
      - rewrite Er. destruct (Hcap l classes c p eq_refl E Hin Hp) as (ch & r & -> & Hch).
        destruct (json_plural_capital (ch :: r)) as (k & Ek); [exists ch, r; auto|]. rewrite Ek. apply returns_Ok. }
    intros regs _. rewrite (maybe_lookup l Hn), Ep in S9. apply lookup_In in Ep.
    apply j_properties in S9; [|eauto]. destruct S9 as (fs & -> & _). cbn [fields bind]. apply returns_Ok.
  Qed.
End NoRaise.
