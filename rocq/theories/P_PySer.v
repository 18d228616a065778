(** C09, C10: the generated Python serializer. *)
From Verif Require Import Base M_Naming M_Errors M_Dec M_Schema M_PyGen S_Conform S_PyGen S_PySer
  P_PyBase P_PyUnknown P_PyClean P_PyGraph.
From Coq Require Import String List Arith NArith ZArith Bool Lia.
Import ListNotations.

(** ** Writing properties into a JSON object *)

Fixpoint put_all (ps : list prop) (vs : list (option jval)) (t : list (str * jval)) : list (str * jval) :=
  match ps, vs with
  | p :: ps', ov :: vs' =>
      put_all ps' vs' (match ov with Some v => upsert (p_json p) v t | None => t end)
  | _, _ => t
  end.

Lemma put_all_NoDup ps : forall vs t, NoDup (keys t) -> NoDup (keys (put_all ps vs t)).
Proof.
  induction ps as [|p ps IH]; intros [|ov vs] t Hn; simpl; auto.
  apply IH. destruct ov; [apply NoDup_keys_upsert|]; exact Hn.
Qed.

Lemma put_all_keys ps : forall vs t k, In k (keys (put_all ps vs t)) ->
  In k (keys t) \/ In k (map p_json ps).
Proof.
  induction ps as [|p ps IH]; intros [|ov vs] t k H; simpl in *; auto.
  apply IH in H as [H|H]; [|auto]. destruct ov; [|auto].
  apply keys_upsert_In in H as [<-|H]; auto.
Qed.

Lemma put_all_other ps k : ~ In k (map p_json ps) ->
  forall vs t, lookup k (put_all ps vs t) = lookup k t.
Proof.
  intros Hk. induction ps as [|p ps IH]; intros [|ov vs] t; simpl in *; auto.
  rewrite IH by tauto. destruct ov; [|reflexivity]. apply lookup_upsert_neq. tauto.
Qed.

Lemma put_all_lookup ps vs : NoDup (map p_json ps) -> length ps = length vs ->
  forall t, Forall2 (fun p ov => lookup (p_json p) (put_all ps vs t) =
                     match ov with Some v => Some v | None => lookup (p_json p) t end) ps vs.
Proof.
  revert vs. induction ps as [|p ps IH]; intros [|ov vs] Hnd Hl t; simpl in *; try discriminate; constructor.
  - inversion Hnd; subst. rewrite put_all_other by assumption.
    destruct ov; [apply lookup_upsert_eq|reflexivity].
  - inversion Hnd as [|? ? Hni Hnd']; subst.
    specialize (IH vs Hnd' ltac:(lia) (match ov with Some v => upsert (p_json p) v t | None => t end)).
    revert IH. generalize (put_all ps vs (match ov with Some v => upsert (p_json p) v t | None => t end)).
    intros r IH. clear -IH Hni. 
    assert (H : forall q, In q ps -> lookup (p_json q)
              (match ov with Some v => upsert (p_json p) v t | None => t end) = lookup (p_json q) t).
    { intros q Hq. destruct ov; [|reflexivity]. apply lookup_upsert_neq.
      intros E. apply Hni. rewrite E. apply in_map. exact Hq. }
    clear Hni. induction IH as [|q ow ps vs Hq _ IH2]; constructor.
    + rewrite Hq. destruct ow; [reflexivity|]. apply H. left. reflexivity.
    + apply IH2. intros q' Hq'. apply H. right. exact Hq'.
Qed.

Lemma Forall2_In_l {A B} (P : A -> B -> Prop) l l' a : Forall2 P l l' -> In a l -> exists b, In b l' /\ P a b.
Proof.
  induction 1 as [|x y l l' H _ IH]; intros Hi; [destruct Hi|].
  destruct Hi as [<-|Hi]; [exists y; simpl; auto|].
  destruct (IH Hi) as (b & Hb & HP). exists b. simpl. auto.
Qed.

Lemma Forall2_conj {A B} (P Q : A -> B -> Prop) l l' :
  Forall2 P l l' -> Forall2 Q l l' -> Forall2 (fun a b => P a b /\ Q a b) l l'.
Proof.
  induction 1 as [|x y l l' H _ IH]; intros HQ; inversion HQ; subst; constructor; auto.
Qed.

Lemma NoDup_app_l {A} (a b : list A) : NoDup (a ++ b) -> NoDup a.
Proof.
  induction a as [|x a IH]; intros H; [constructor|]. inversion H as [|? ? Hn Hd]; subst.
  constructor; [|auto]. intros Hi. apply Hn. apply in_or_app. auto.
Qed.
Lemma NoDup_app_r {A} (a b : list A) : NoDup (a ++ b) -> NoDup b.
Proof. induction a as [|x a IH]; intros H; [exact H|]. inversion H; auto. Qed.
Lemma NoDup_app_disjoint {A} (a b : list A) x : NoDup (a ++ b) -> In x a -> ~ In x b.
Proof.
  induction a as [|y a IH]; intros H Ha Hb; [destruct Ha|].
  inversion H as [|? ? Hn Hd]; subst. destruct Ha as [->|Ha]; [|exact (IH Hd Ha Hb)].
  apply Hn. apply in_or_app. auto.
Qed.

Section Py.
  Variable X : ext.
  Variable S : py_settings.
  Variable G : graph.
  Hypothesis Hdistinct : attrs_distinct G.
  Hypothesis Hlower : lower_names G.
  Hypothesis Hjson : json_distinct G.

  Section Heap.
    Variable heap : list instance.

    Lemma lookup_attributes attrs k :
      lookup k (attributes_of X S G heap attrs) =
      match lookup k attrs with
      | Some x => Some (x, serialize_value X S G heap x)
      | None => None
      end.
    Proof.
      unfold attributes_of. induction attrs as [|[k' x] attrs IH]; simpl; [reflexivity|].
      destruct (str_eqb k k'); [reflexivity|exact IH].
    Qed.

    (** What is written for a property. *)
    Definition prop_out (attrs : list (str * pyval)) (p : prop) (ov : option jval) : Prop :=
      exists x, lookup (attr (p_name p)) attrs = Some x /\
        ((x = PVNone /\ p_optional p = true /\ ov = None) \/
         (x <> PVNone /\ exists v, ov = Some v /\ serialize_value X S G heap x (p_type p) = Ok v /\
                                   wrote X G heap (p_type p) x v /\ json_wf v)).

    Lemma serialize_properties_put name_of ps attrs vs :
      (forall p, In p ps -> name_of p = attr (p_name p)) ->
      Forall2 (prop_out attrs) ps vs ->
      forall target, serialize_properties name_of ps (attributes_of X S G heap attrs) target
                     = Ok (put_all ps vs target).
    Proof.
      intros Hn HF. induction HF as [|p ov ps vs (x & E & Hx) _ IH]; intros target; [reflexivity|].
      cbn [serialize_properties put_all]. unfold serialize_property.
      rewrite (Hn p (or_introl eq_refl)), lookup_attributes, E.
      specialize (IH (fun q Hq => Hn q (or_intror Hq))).
      destruct Hx as [(-> & Ho & ->)|(Hx & v & -> & Ev & _)].
      - rewrite Ho. cbn [bind]. apply IH.
      - assert (Hm : forall A (a b : A),
                  match p_optional p, x with true, PVNone => a | _, _ => b end = b).
        { intros A a b. destruct (p_optional p), x; congruence. }
        rewrite Hm. rewrite Ev. cbn [bind]. apply IH.
    Qed.

    Lemma fields_written attrs ps vs : NoDup (map p_json ps) ->
      Forall2 (prop_out attrs) ps vs -> fields_wrote X G heap ps attrs (put_all ps vs []).
    Proof.
      intros Hnd HF p Hp.
      assert (HL := put_all_lookup ps vs Hnd (Forall2_length _ _ _ HF) []).
      destruct (Forall2_In_l _ _ _ p (Forall2_conj _ _ _ _ HF HL) Hp) as (ov & _ & (x & E & Hx) & El).
      exists x. split; [exact E|].
      destruct Hx as [(-> & Ho & ->)|(Hx & v & -> & Ev & Hw & _)].
      - left. split; [reflexivity|]. apply lookup_None. exact El.
      - right. split; [exact Hx|]. exists v. auto.
    Qed.

    Lemma put_all_wf attrs ps vs : Forall2 (prop_out attrs) ps vs ->
      forall t, (forall k v, In (k, v) t -> json_wf v) ->
      forall k v, NoDup (keys t) -> In (k, v) (put_all ps vs t) -> json_wf v.
    Proof.
      induction 1 as [|p ov ps vs (x & E & Hx) _ IH]; intros t Ht k v Hn Hi; simpl in Hi; [eauto|].
      revert Hi. apply IH.
      - destruct Hx as [(_ & _ & ->)|(_ & w & -> & _ & _ & Hw)]; [exact Ht|].
        intros k' v' Hi. apply In_lookup in Hi; [|apply NoDup_keys_upsert; exact Hn].
        destruct (list_eq_dec N.eq_dec (p_json p) k') as [<-|Hne].
        + rewrite lookup_upsert_eq in Hi. congruence.
        + rewrite lookup_upsert_neq in Hi by exact Hne. apply lookup_In in Hi. eauto.
      - destruct ov; [apply NoDup_keys_upsert|]; exact Hn.
    Qed.

    Definition alloc (n : str) (a : addr) : Prop := exists i, nth_error heap a = Some i.

    Definition serializes (x : pyval) (t : ty) : Prop :=
      exists v, serialize_value X S G heap x t = Ok v /\ wrote X G heap t x v /\ json_wf v.

    Lemma props_out ps attrs :
      (forall p x, In p ps -> lookup (attr (p_name p)) attrs = Some x ->
                   sat G (py_kind S) alloc (p_type p) x -> serializes x (p_type p)) ->
      (forall p, In p ps -> exists x, lookup (attr (p_name p)) attrs = Some x /\
         ((x = PVNone /\ p_optional p = true) \/ sat G (py_kind S) alloc (p_type p) x)) ->
      exists vs, Forall2 (prop_out attrs) ps vs.
    Proof.
      intros Hs Hp. induction ps as [|p ps IH]; [exists []; constructor|].
      destruct IH as [vs Hvs]; [intros q x Hq; apply Hs; right; exact Hq|intros q Hq; apply Hp; right; exact Hq|].
      destruct (Hp p (or_introl eq_refl)) as (x & E & [[-> Ho]|Hx]).
      - exists (None :: vs). constructor; [|exact Hvs]. exists PVNone. auto.
      - destruct (Hs p x (or_introl eq_refl) E Hx) as (v & Ev & Hw & Hwf).
        exists (Some v :: vs). constructor; [|exact Hvs]. exists x. split; [exact E|right].
        split; [|exists v; auto]. intros ->. inversion Hx; subst; congruence.
    Qed.

    Lemma serialize_scalar t x : scalar t = true -> py_kind S t x -> serializes x t.
    Proof.
      intros Hs Hk. unfold serializes.
      destruct t; try discriminate Hs; cbn [py_kind] in Hk;
        repeat match goal with
               | H : exists _, _ |- _ => destruct H
               | H : _ \/ _ |- _ => destruct H
               end; subst; cbn [serialize_value as_is];
        try (eexists; split; [reflexivity|]; split; [apply w_scalar; [reflexivity|cbn; eauto]|constructor]).
      - destruct (pathlib S) eqn:Ep; cbn [serialize_value]; rewrite ?Ep; cbn [as_is];
          (eexists; split; [reflexivity|]; split; [apply w_scalar; [reflexivity|cbn; eauto]|constructor]).
      - destruct (pytz S) eqn:Ep; cbn [serialize_value]; rewrite ?Ep; cbn [as_is];
          (eexists; split; [reflexivity|]; split; [apply w_scalar; [reflexivity|cbn; eauto]|constructor]).
    Qed.

    Lemma serialize_value_ok x : forall t, sat G (py_kind S) alloc t x -> serializes x t.
    Proof.
      induction x as [x Hx|l IH|l IH|n l IH] using pyval_ind'; intros t H;
        inversion H as [? ? Ht HS HN|? ? ? ? Hz Hl|? ? Hn Hl|? ? Hr|? e ? He Hk Hp]; subst;
        try (apply serialize_scalar; assumption); try contradiction.
      - destruct Hr as [i Ei]. exists (JStr (i_id i)). cbn [serialize_value]. rewrite Ei.
        split; [reflexivity|]. split; [apply w_ref; exact Ei|constructor].
      - assert (HG : exists vs, Forall2 (fun x v => serialize_value X S G heap x t0 = Ok v /\
                       wrote X G heap t0 x v /\ json_wf v) l vs).
        { clear H Hz. induction IH as [|x l Hx _ IHl]; [exists []; constructor|].
          destruct IHl as [vs Hvs]; [intros y Hy; apply Hl; right; exact Hy|].
          destruct (Hx t0 (Hl x (or_introl eq_refl))) as (v & Hv).
          exists (v :: vs). constructor; assumption. }
        destruct HG as [vs HG]. exists (JArr vs). split; [|split].
        + cbn [serialize_value].
          assert (E : serialize_items (map (serialize_value X S G heap) l) t0 = Ok vs).
          { clear -HG. induction HG as [|x v l vs (Hv & _) _ IH]; [reflexivity|].
            cbn [map serialize_items]. rewrite Hv. cbn [bind]. rewrite IH. reflexivity. }
          rewrite E. reflexivity.
        + apply w_array. clear -HG. induction HG as [|x v l vs (_ & Hv & _) _ IH]; constructor; assumption.
        + apply jwf_arr. clear -HG. induction HG as [|x v l vs (_ & _ & Hv) _ IH]; intros w Hw; [destruct Hw|].
          destruct Hw as [<-|Hw]; auto.
      - assert (HG : exists vs, Forall2 (fun kx kv => fst kx = fst kv /\
                       serialize_value X S G heap (snd kx) t0 = Ok (snd kv) /\
                       wrote X G heap t0 (snd kx) (snd kv) /\ json_wf (snd kv)) l vs).
        { clear H Hn. induction IH as [|[k x] l Hx _ IHl]; [exists []; constructor|].
          destruct IHl as [vs Hvs]; [intros k' y Hy; apply (Hl k'); right; exact Hy|].
          destruct (Hx t0 (Hl k x (or_introl eq_refl))) as (v & Hv).
          exists ((k, v) :: vs). constructor; auto. }
        destruct HG as [vs HG]. exists (JObj vs). split; [|split].
        + cbn [serialize_value].
          assert (E : serialize_entries (map (fun kv => (fst kv, serialize_value X S G heap (snd kv))) l) t0 = Ok vs).
          { clear -HG. induction HG as [|[k x] [k' v] l vs (Hk & Hv & _) _ IH]; [reflexivity|].
            simpl in Hk, Hv. subst k'. cbn [map serialize_entries fst snd]. rewrite Hv. cbn [bind].
            rewrite IH. reflexivity. }
          rewrite E. reflexivity.
        + apply w_map. clear -HG. induction HG as [|x v l vs (Hk & _ & Hv & _) _ IH]; constructor; auto.
        + apply jwf_obj.
          * replace (keys vs) with (keys l); [exact Hn|].
            clear -HG. induction HG as [|[k x] [k' v] l vs (Hk & _) _ IH]; [reflexivity|].
            unfold keys in *. simpl in *. congruence.
          * clear -HG. induction HG as [|x [k' v] l vs (_ & _ & _ & Hv) _ IH]; intros k w Hw; [destruct Hw|].
            destruct Hw as [[= <- <-]|Hw]; eauto.
      - assert (Hin : In e (g_embeds G)) by (eapply find_some; exact He).
        destruct (props_out (e_props e) l) as [vs HG].
        { intros p x Hi E Hs. rewrite Forall_forall in IH. apply lookup_In in E. apply (IH _ E). exact Hs. }
        { exact Hp. }
        destruct Hjson as (_ & Hje & _). destruct Hlower as (_ & Hle).
        exists (JObj (put_all (e_props e) vs [])). split; [|split].
        + cbn [serialize_value]. rewrite He.
          change (map (fun kv => (fst kv, (snd kv, serialize_value X S G heap (snd kv)))) l)
            with (attributes_of X S G heap l).
          rewrite (serialize_properties_put p_name (e_props e) l vs); [reflexivity| |exact HG].
          intros p Hi. symmetry. eapply Hle; eassumption.
        + eapply w_embed; [exact He|apply put_all_NoDup; constructor| |].
          * intros k Hi. apply put_all_keys in Hi as [[]|Hi]. apply in_map_iff in Hi as (p & Hp1 & Hp2). eauto.
          * apply fields_written; [apply Hje; exact Hin|exact HG].
        + apply jwf_obj; [apply put_all_NoDup; constructor|].
          intros k v. eapply put_all_wf; [exact HG|intros ? ? []|constructor].
    Qed.

    Lemma serialize_instance_ok c i : In c (g_classes G) ->
      attrs_sat G (py_kind S) alloc (c_props c) (i_attrs i) ->
      exists v, serialize_instance X S G heap c i = Ok v /\ instance_wrote X G heap c i v /\ json_wf v.
    Proof.
      intros Hc [Hk Hp].
      destruct (props_out (c_props c) (i_attrs i)) as [vs HG]; [intros p x _ _; apply serialize_value_ok|exact Hp|].
      destruct Hjson as (Hjc & _). destruct Hlower as (Hlc & _).
      exists (JObj (put_all (c_props c) vs [])). unfold serialize_instance.
      rewrite (serialize_properties_put p_name (c_props c) (i_attrs i) vs); [|intros p Hi; symmetry; eapply Hlc; eassumption|exact HG].
      split; [reflexivity|]. split.
      - exists (put_all (c_props c) vs []). split; [reflexivity|].
        split; [apply put_all_NoDup; constructor|]. split.
        + intros k Hi. apply put_all_keys in Hi as [[]|Hi]. apply in_map_iff in Hi as (p & Hp1 & Hp2). eauto.
        + apply fields_written; [apply Hjc; exact Hc|exact HG].
      - apply jwf_obj; [apply put_all_NoDup; constructor|].
        intros k v. eapply put_all_wf; [exact HG|intros ? ? []|constructor].
    Qed.

    Definition entry_wrote (c : cls) (ka : str * addr) (kv : str * jval) : Prop :=
      fst ka = fst kv /\
      exists i, nth_error heap (snd ka) = Some i /\ i_id i = fst ka /\
                instance_wrote X G heap c i (snd kv).

    Lemma serialize_registry_cases c reg : In c (g_classes G) ->
      (forall id a, In (id, a) reg -> exists i, nth_error heap a = Some i /\
         attrs_sat G (py_kind S) alloc (c_props c) (i_attrs i)) ->
      (exists m, serialize_registry X S G heap c reg = Ok m /\ Forall2 (entry_wrote c) reg m /\
                 (forall k v, In (k, v) m -> json_wf v)) \/
      (serialize_registry X S G heap c reg = Raise ValueError /\
       exists id a i, In (id, a) reg /\ nth_error heap a = Some i /\ i_id i <> id).
    Proof.
      intros Hc. induction reg as [|[id a] reg IH]; intros Hreg.
      - left. exists []. split; [reflexivity|]. split; [constructor|intros ? ? []].
      - cbn [serialize_registry]. destruct (Hreg id a (or_introl eq_refl)) as (i & Ei & Hi).
        rewrite Ei. destruct (str_eqb id (i_id i)) eqn:E; cbn [negb].
        + apply str_eqb_eq in E.
          destruct (serialize_instance_ok c i Hc Hi) as (v & Ev & Hv & Hwf). rewrite Ev. cbn [bind].
          destruct IH as [(m & Em & Hm & Hmw)|(Em & id' & a' & i' & H1 & H2 & H3)].
          { intros id' a' Hi'. apply (Hreg id' a'). right. exact Hi'. }
          * left. rewrite Em. exists ((id, v) :: m). split; [reflexivity|]. split.
            -- constructor; [|exact Hm]. split; [reflexivity|]. exists i. simpl. auto.
            -- intros k w [[= <- <-]|Hw]; eauto.
          * right. rewrite Em. split; [reflexivity|]. exists id', a', i'. simpl. auto.
        + right. split; [reflexivity|]. exists id, a, i. apply str_eqb_neq in E. simpl. auto.
    Qed.

    (** The members written for the registries. *)
    Definition registry_out (R : registries) (c : cls) (ov : option jval) : Prop :=
      exists reg, lookup (attr (c_plural c)) R = Some reg /\
        ((reg = [] /\ ov = None) \/
         (reg <> [] /\ exists m, ov = Some (JObj m) /\ Forall2 (entry_wrote c) reg m /\
                                 (forall k v, In (k, v) m -> json_wf v) /\
                                 serialize_registry X S G heap c reg = Ok m)).

    (** A registry seen as a property, to share the lemmas on [put_all]. *)
    Definition reg_prop (c : cls) : prop :=
      {| p_ref := []; p_name := c_plural c; p_type := TBool; p_description := [];
         p_json := py_key c; p_optional := true |}.

    Lemma serialize_registries_cases R cs :
      (forall c, In c cs -> In c (g_classes G)) ->
      (forall c, In c cs -> exists reg, lookup (attr (c_plural c)) R = Some reg /\
         forall id a, In (id, a) reg -> exists i, nth_error heap a = Some i /\
           attrs_sat G (py_kind S) alloc (c_props c) (i_attrs i)) ->
      (exists vs, Forall2 (registry_out R) cs vs /\
         forall target, serialize_registries X S G heap cs R target
                        = Ok (put_all (map reg_prop cs) vs target)) \/
      ((forall target, serialize_registries X S G heap cs R target = Raise ValueError) /\
       exists c reg id a i, In c cs /\ lookup (attr (c_plural c)) R = Some reg /\
         In (id, a) reg /\ nth_error heap a = Some i /\ i_id i <> id).
    Proof.
      induction cs as [|c cs IH]; intros Hin Hreg.
      - left. exists []. split; [constructor|reflexivity].
      - destruct (Hreg c (or_introl eq_refl)) as (reg & E & Hr).
        specialize (IH (fun d H => Hin d (or_intror H)) (fun d H => Hreg d (or_intror H))).
        destruct (serialize_registry_cases c reg (Hin c (or_introl eq_refl)) Hr)
          as [(m & Em & Hm & Hmw)|(Em & id & a & i & H1 & H2 & H3)].
        + destruct IH as [(vs & Hvs & Ev)|(Ev & c' & reg' & id & a & i & H1 & H2 & H3 & H4 & H5)].
          * left. destruct reg as [|ka reg].
            -- exists (None :: vs). split.
               ++ constructor; [|exact Hvs]. exists []. auto.
               ++ intros target. cbn [serialize_registries]. unfold registries, addr in *. rewrite E. apply Ev.
            -- exists (Some (JObj m) :: vs). split.
               ++ constructor; [|exact Hvs]. exists (ka :: reg). split; [exact E|].
                  right. split; [discriminate|]. exists m. auto.
               ++ intros target. cbn [serialize_registries]. unfold registries, addr in *. rewrite E, Em. cbn [bind]. apply Ev.
          * right. split.
            -- intros target. cbn [serialize_registries]. unfold registries, addr in *. rewrite E. destruct reg as [|ka reg]; [apply Ev|].
               rewrite Em. cbn [bind]. apply Ev.
            -- exists c', reg', id, a, i. simpl. auto 10.
        + right. split.
          * intros target. cbn [serialize_registries]. unfold registries, addr in *. rewrite E. destruct reg as [|ka reg]; [destruct H1|].
            rewrite Em. reflexivity.
          * exists c, reg, id, a, i. simpl. auto 10.
    Qed.
  End Heap.

  Lemma serialize_graph_cases pg : graph_typed S G pg ->
    (serialize_graph X S G pg = Raise ValueError /\ inconsistent G pg) \/
    (exists l, serialize_graph X S G pg = Ok (JObj l) /\ ~ inconsistent G pg /\
               graph_wrote X G pg l /\ json_wf (JObj l)).
  Proof.
    intros [[Hk Hp] Hr]. destruct Hjson as (Hjc & Hje & Hjg).
    destruct (props_out (pg_heap pg) (g_props G) (pg_attrs pg)) as [vs HG];
      [intros p x _ _; apply serialize_value_ok|exact Hp|].
    unfold serialize_graph.
    rewrite (serialize_properties_put (pg_heap pg) _ (g_props G) (pg_attrs pg) vs (fun p _ => eq_refl) HG).
    cbn [bind].
    destruct (serialize_registries_cases (pg_heap pg) (pg_registries pg) (g_classes G) (fun c H => H))
      as [(ws & Hws & Ew)|(Ew & c & reg & id & a & i & H1 & H2 & H3 & H4 & H5)].
    { intros c Hc. destruct (Hr c Hc) as (reg & E & _ & Hi). exists reg. split; [exact E|exact Hi]. }
    - right. rewrite Ew. cbn [bind].
      set (l := put_all (map reg_prop (g_classes G)) ws (put_all (g_props G) vs [])).
      assert (Hnd1 : NoDup (map p_json (g_props G))) by (eapply NoDup_app_l; exact Hjg).
      assert (Hnd2 : NoDup (map p_json (map reg_prop (g_classes G)))).
      { rewrite map_map. eapply NoDup_app_r. exact Hjg. }
      assert (Hdisj : forall k, In k (map p_json (g_props G)) -> ~ In k (map p_json (map reg_prop (g_classes G)))).
      { intros k H1 H2. rewrite map_map in H2. eapply NoDup_app_disjoint; [exact Hjg|exact H1|exact H2]. }
      assert (HlenR : length (map reg_prop (g_classes G)) = length ws).
      { rewrite map_length. apply (Forall2_length _ _ _ Hws). }
      assert (HL := put_all_lookup (map reg_prop (g_classes G)) ws Hnd2 HlenR (put_all (g_props G) vs [])).
      fold l in HL.
      assert (Hreg_l : forall c, In c (g_classes G) -> exists ov, registry_out (pg_heap pg) (pg_registries pg) c ov /\
                 lookup (py_key c) l = ov).
      { intros c Hc.
        assert (HL' : Forall2 (fun c ov => lookup (py_key c) l = match ov with Some v => Some v
                        | None => lookup (py_key c) (put_all (g_props G) vs []) end) (g_classes G) ws).
        { clear -HL. revert HL. generalize l. clear l. intros l.
          generalize (put_all (g_props G) vs []). intros t. generalize (g_classes G) ws.
          induction l0 as [|c cs IH]; intros ws' HL; simpl in HL; inversion HL; subst; constructor; auto. }
        destruct (Forall2_In_l _ _ _ c (Forall2_conj _ _ _ _ Hws HL') Hc) as (ov & _ & Ho & El).
        exists ov. split; [exact Ho|]. rewrite El. destruct ov; [reflexivity|].
        apply lookup_None. intros Hi. apply put_all_keys in Hi as [[]|Hi].
        eapply Hdisj; [exact Hi|]. rewrite map_map. apply (in_map py_key). exact Hc. }
      assert (Hndl : NoDup (keys l)) by (apply put_all_NoDup, put_all_NoDup; constructor).
      exists l. split; [reflexivity|]. split; [|split].
      + intros (c & reg & id & a & i & Hc & E & Hi & Ei & Hid).
        destruct (Hreg_l c Hc) as (ov & (reg' & E' & Ho) & _). rewrite E in E'. injection E' as <-.
        destruct Ho as [(-> & _)|(_ & m & _ & Hm & _)]; [destruct Hi|].
        destruct (Forall2_In_l _ _ _ _ Hm Hi) as (kv & _ & _ & i' & Ei' & Hid' & _).
        simpl in *. congruence.
      + split; [exact Hndl|]. split; [|split].
        * intros k Hi. apply put_all_keys in Hi as [Hi|Hi].
          -- apply put_all_keys in Hi as [[]|Hi]. left. apply in_map_iff in Hi as (p & H1 & H2). eauto.
          -- right. rewrite map_map in Hi. apply in_map_iff in Hi as (c & H1 & H2). eauto.
        * assert (Hf := fields_written (pg_heap pg) (pg_attrs pg) (g_props G) vs Hnd1 HG).
          intros p Hi. destruct (Hf p Hi) as (x & Ex & Hx). exists x. split; [exact Ex|].
          assert (Hpj : ~ In (p_json p) (map p_json (map reg_prop (g_classes G)))).
          { apply Hdisj. apply in_map. exact Hi. }
          assert (El : lookup (p_json p) l = lookup (p_json p) (put_all (g_props G) vs []))
            by (apply put_all_other; exact Hpj).
          destruct Hx as [(-> & Hn)|(Hx & v & Ev & Hw)].
          -- left. split; [reflexivity|]. apply lookup_None. rewrite El. apply lookup_None. exact Hn.
          -- right. split; [exact Hx|]. exists v. rewrite El. auto.
        * intros c Hc. destruct (Hreg_l c Hc) as (ov & (reg & E & Ho) & El). exists reg. split; [exact E|].
          destruct Ho as [(-> & ->)|(Hne & m & -> & Hm & _)].
          -- left. split; [reflexivity|]. apply lookup_None. exact El.
          -- right. split; [exact Hne|]. exists m. split; [exact El|exact Hm].
      + apply jwf_obj; [exact Hndl|].
        assert (Hw1 : forall k v, In (k, v) (put_all (g_props G) vs []) -> json_wf v).
        { intros k v. eapply put_all_wf; [exact HG|intros ? ? []|constructor]. }
        assert (Hn1 : NoDup (keys (put_all (g_props G) vs []))) by (apply put_all_NoDup; constructor).
        assert (Hregs_wf : forall c ov, In c (g_classes G) -> registry_out (pg_heap pg) (pg_registries pg) c ov ->
                  forall v, ov = Some v -> json_wf v).
        { intros c ov Hc (reg & E & Ho) v ->. destruct Ho as [(_ & H)|(_ & m & [= ->] & Hm & Hmw & _)]; [discriminate|].
          destruct (Hr c Hc) as (reg' & E' & Hnr & _). rewrite E in E'. injection E' as <-.
          apply jwf_obj; [|exact Hmw].
          replace (keys m) with (keys reg); [exact Hnr|].
          clear -Hm. induction Hm as [|[k a] [k' v] reg m (Hk & _) _ IH]; [reflexivity|].
          unfold keys in *. simpl in *. congruence. }
        unfold l. clear -Hw1 Hn1 Hregs_wf Hws. revert Hw1 Hn1 Hregs_wf.
        generalize (put_all (g_props G) vs []).
        induction Hws as [|c ov cs ws Ho _ IH]; intros t Hw1 Hn1 Hregs_wf k v Hi; cbn [map put_all] in Hi; [eauto|].
        revert Hi. apply IH.
        * destruct ov as [w|]; [|exact Hw1]. intros k' v' Hi.
          apply In_lookup in Hi; [|apply NoDup_keys_upsert; exact Hn1].
          destruct (list_eq_dec N.eq_dec (p_json (reg_prop c)) k') as [<-|Hne].
          -- rewrite lookup_upsert_eq in Hi. injection Hi as <-.
             eapply Hregs_wf; [left; reflexivity|exact Ho|reflexivity].
          -- rewrite lookup_upsert_neq in Hi by exact Hne. apply lookup_In in Hi. eauto.
        * destruct ov; [apply NoDup_keys_upsert|]; exact Hn1.
        * intros d ov' Hd. apply Hregs_wf. right. exact Hd.
    - left. rewrite Ew. split; [reflexivity|]. exists c, reg, id, a, i. auto 10.
  Qed.
End Py.
