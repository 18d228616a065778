(** C17: the generated Go serializer, and the round trip through JSON text. *)
From Verif Require Import Base M_Naming M_Errors M_Dec M_Schema M_Strftime M_Duration M_Num M_GoGen S_Conform S_Common S_GoGen P_Common
  P_GoBase P_GoParse P_GoGraph P_DurPrint.
From Verif Require P_PyClean.
From Coq Require Import String List Arith NArith ZArith Bool Lia Floats.SpecFloat Permutation.
Import ListNotations.

Section goval_ind.
  Variable T : Type.
  Variable P : goval T -> Prop.
  Hypothesis Hatom : forall x, (match x with GList _ | GMap _ | GStruct _ => False | _ => True end) -> P x.
  Hypothesis Hlist : forall l, Forall P l -> P (GList l).
  Hypothesis Hmap : forall l, Forall (fun kv => P (snd kv)) l -> P (GMap l).
  Hypothesis Hstruct : forall l, Forall (fun kv => P (snd kv)) l -> P (GStruct l).
  Fixpoint goval_ind' (x : goval T) : P x :=
    match x with
    | GList l => Hlist l ((fix go l : Forall P l :=
        match l with [] => Forall_nil _ | x :: l' => Forall_cons x (goval_ind' x) (go l') end) l)
    | GMap l => Hmap l ((fix go l : Forall (fun kv => P (snd kv)) l :=
        match l with [] => Forall_nil _ | kv :: l' => Forall_cons kv (goval_ind' (snd kv)) (go l') end) l)
    | GStruct l => Hstruct l ((fix go l : Forall (fun kv => P (snd kv)) l :=
        match l with [] => Forall_nil _ | kv :: l' => Forall_cons kv (goval_ind' (snd kv)) (go l') end) l)
    | x => Hatom x I
    end.
End goval_ind.

(** [via_json] of the members of an object. *)
Definition via_list (l : list (str * jval)) : option (list (str * jval)) :=
  all_some (map (fun kv => option_map (pair (fst kv)) (via_json (snd kv))) l).

Lemma via_obj l : via_json (JObj l) = option_map JObj (via_list l).
Proof. reflexivity. Qed.

Lemma via_cons k v l : via_list ((k, v) :: l) =
  match via_json v with
  | Some w => match via_list l with Some l' => Some ((k, w) :: l') | None => None end
  | None => None
  end.
Proof. unfold via_list. simpl. destruct (via_json v); simpl; [|reflexivity]. destruct (all_some _); reflexivity. Qed.

Lemma via_upsert k v w : via_json v = Some w -> forall t t', via_list t = Some t' ->
  via_list (upsert k v t) = Some (upsert k w t').
Proof.
  intros Hv. induction t as [|[k' v'] t IH]; intros t' H.
  - injection H as <-. simpl. rewrite via_cons, Hv. reflexivity.
  - rewrite via_cons in H. destruct (via_json v') as [w'|] eqn:E; [|discriminate].
    destruct (via_list t) as [t1|] eqn:E1; [|discriminate]. injection H as <-. simpl.
    destruct (str_eqb k k'); rewrite via_cons.
    + rewrite Hv, E1. reflexivity.
    + rewrite E, (IH _ eq_refl). reflexivity.
Qed.

Section Ser.
  Variable X : gext.
  Variable G : graph.
  Hypothesis Hjson : go_json_distinct G.
  Variable gg : gograph (g_time X).
  Notation val := (goval (g_time X)).
  Notation heap := (gg_heap gg).
  Notation R := (gg_registries gg).
  Let known (n id : str) : Prop := exists a, gdesignates G R n id a.

  (** [w] is what a reader sees for [x]. *)
  Definition written (t : ty) (w : jval) (x : val) : Prop :=
    grep X G (gdesignates G R) t w x /\ conforms G (go_leaf X) known t w /\ json_wf w /\ no_null w.
  Definition serialized (t : ty) (x : val) : Prop :=
    exists v w, go_ser_value X G heap x t = SOk v /\ via_json v = Some w /\ written t w x.

  Lemma lookup_gattributes fields k :
    lookup k (gattributes_of X G heap fields) =
    match lookup k fields with Some x => Some (x, go_ser_value X G heap x) | None => None end.
  Proof.
    unfold gattributes_of. induction fields as [|[k' x] fields IH]; simpl; [reflexivity|].
    destruct (str_eqb k k'); [reflexivity|exact IH].
  Qed.

  Definition field_ok (fields : list (str * val)) (p : prop) : Prop :=
    exists x, lookup (field (p_name p)) fields = Some x /\
      ((x = GNil /\ p_optional p = true) \/ (x <> GNil /\ serialized (p_type p) x)).

  Lemma ser_properties fields : forall ps target target',
    NoDup (map p_json ps) -> (forall p, In p ps -> field_ok fields p) ->
    via_list target = Some target' -> NoDup (keys target') ->
    (forall p, In p ps -> ~ In (p_json p) (keys target')) ->
    exists t w, go_ser_properties X ps (gattributes_of X G heap fields) target = SOk t /\
      via_list t = Some w /\ NoDup (keys w) /\
      (forall k, ~ In k (map p_json ps) -> lookup k w = lookup k target') /\
      (forall p, In p ps -> exists x, lookup (field (p_name p)) fields = Some x /\
         ((x = GNil /\ p_optional p = true /\ lookup (p_json p) w = None) \/
          (x <> GNil /\ exists y, lookup (p_json p) w = Some y /\ written (p_type p) y x))).
  Proof.
    induction ps as [|p ps IH]; intros target target' ND H V NT F.
    - exists target, target'. simpl. repeat split; auto. intros p [].
    - inversion ND as [|? ? N1 N2]; subst.
      assert (Hps : forall p, In p ps -> field_ok fields p) by (intros; apply H; right; auto).
      simpl. unfold go_ser_property. rewrite lookup_gattributes.
      destruct (H p (or_introl eq_refl)) as (x & Lx & Hx). rewrite Lx.
      destruct Hx as [[-> O]|[Nx (v & y & Sv & Vy & Wy)]].
      + rewrite O. cbn [sbind].
        destruct (IH target target' N2 Hps V NT) as (t & w & E & Vw & Nw & Ko & Kp).
        { intros q Hq. apply F. right. exact Hq. }
        exists t, w. split; [exact E|]. split; [exact Vw|]. split; [exact Nw|]. split.
        * intros k Hk. apply Ko. simpl in Hk. tauto.
        * intros q [<-|Hq]; [|auto]. exists GNil. split; [exact Lx|]. left. repeat split; auto.
          rewrite Ko by exact N1. apply lookup_None. apply F. left. reflexivity.
      + assert (Hm : forall A (a b : A), match p_optional p, x with true, GNil => a | _, _ => b end = b).
        { intros A a b. destruct (p_optional p), x; congruence. }
        rewrite Hm, Sv. cbn [sbind].
        destruct (IH (upsert (p_json p) v target) (upsert (p_json p) y target') N2 Hps) as (t & w & E & Vw & Nw & Ko & Kp).
        { apply via_upsert; assumption. }
        { apply NoDup_keys_upsert. exact NT. }
        { intros q Hq C. apply keys_upsert_In in C as [C|C].
          - apply N1. rewrite <- C. apply in_map. exact Hq.
          - exact (F q (or_intror Hq) C). }
        exists t, w. split; [exact E|]. split; [exact Vw|]. split; [exact Nw|]. split.
        * intros k Hk. simpl in Hk. rewrite Ko by tauto. apply lookup_upsert_neq. tauto.
        * intros q [<-|Hq]; [|auto]. exists x. split; [exact Lx|]. right. split; [exact Nx|]. exists y.
          split; [|exact Wy]. rewrite Ko by exact N1. apply lookup_upsert_eq.
  Qed.

  (** Starting from an empty object: what is written has no other keys. *)
  Lemma ser_properties_keys fields : forall ps target t, 
    go_ser_properties X ps (gattributes_of X G heap fields) target = SOk t ->
    forall k, In k (keys t) -> In k (keys target) \/ In k (map p_json ps).
  Proof.
    induction ps as [|p ps IH]; intros target t H k Hk; simpl in H.
    - injection H as <-. auto.
    - destruct (go_ser_property X p _ target) as [t1|] eqn:E; [|discriminate]. cbn [sbind] in H.
      apply (IH _ _ H) in Hk as [Hk|Hk]; [|simpl; auto].
      unfold go_ser_property in E. destruct (lookup _ _) as [[v s]|]; [|discriminate].
      assert (D : t1 = target \/ exists x, t1 = upsert (p_json p) x target).
      { destruct (p_optional p), v; try (injection E as <-; left; reflexivity);
        (destruct (s (p_type p)) as [x|]; [|discriminate]); injection E as <-; right; eauto. }
      destruct D as [->|[x ->]]; [auto|]. apply keys_upsert_In in Hk as [->|Hk]; simpl; auto.
  Qed.

  Lemma via_keys : forall t w, via_list t = Some w -> keys w = keys t.
  Proof.
    induction t as [|[k v] t IH]; intros w H; [injection H as <-; reflexivity|].
    rewrite via_cons in H. destruct (via_json v); [|discriminate]. destruct (via_list t) as [t1|]; [|discriminate].
    injection H as <-. simpl. rewrite (IH t1 eq_refl). reflexivity.
  Qed.

  Lemma fields_written fields ps : NoDup (map p_json ps) ->
    keys fields = map (fun p => field (p_name p)) ps ->
    (forall p, In p ps -> field_ok fields p) ->
    exists t w, go_ser_properties X ps (gattributes_of X G heap fields) [] = SOk t /\
      via_list t = Some w /\ json_wf (JObj w) /\ no_null (JObj w) /\
      (forall k, In k (keys w) -> In k (map p_json ps)) /\
      fields_conform G (go_leaf X) known ps w /\ gfields_rep X G (gdesignates G R) ps w fields.
  Proof.
    intros ND Kf H.
    destruct (ser_properties fields ps [] [] ND H eq_refl (NoDup_nil _) (fun _ _ C => C)) as (t & w & E & V & Nw & Ko & Kp).
    exists t, w. split; [exact E|]. split; [exact V|].
    assert (Kw : forall k, In k (keys w) -> In k (map p_json ps)).
    { intros k Hk. rewrite (via_keys _ _ V) in Hk. apply (ser_properties_keys _ _ _ _ E) in Hk as [[]|Hk]. exact Hk. }
    assert (A : forall k y, In (k, y) w -> json_wf y /\ no_null y).
    { intros k y Hy. assert (Hk := Kw k (In_keys _ _ _ Hy)). apply in_map_iff in Hk as (p & <- & Hp).
      apply In_lookup in Hy; [|exact Nw].
      destruct (Kp p Hp) as (x & Lx & [(_ & _ & L)|(_ & y' & L & W)]); [congruence|].
      rewrite Hy in L. injection L as <-. destruct W as (_ & _ & W1 & W2). auto. }
    split; [constructor; [exact Nw|intros; eapply A; eauto]|].
    split; [constructor; intros; eapply A; eauto|].
    split; [exact Kw|]. split; [|split; [exact Kf|]].
    - intros p Hp. destruct (Kp p Hp) as (x & Lx & [(-> & O & L)|(Nx & y & L & W)]).
      + left. split; [exact O|left; exact L].
      + right. exists y. split; [exact L|]. destruct W as (_ & C & _ & W2). split; [intros ->; inversion W2|exact C].
    - intros p Hp. destruct (Kp p Hp) as (x & Lx & [(-> & O & L)|(Nx & y & L & W)]).
      + left. auto.
      + right. exists y, x. destruct W as (W1 & _). auto.
  Qed.

  Lemma value_written : forall x t, gsat X G (go_canon X) (gregistered X G gg) t x -> serialized t x.
  Proof.
    assert (Hscalar : forall x t, scalar t = true -> go_canon X t x -> serialized t x).
    { intros x t Hs Hc. destruct t; try discriminate; simpl in Hc.
      - destruct Hc as [b ->]. exists (JBool b), (JBool b). do 2 (split; [reflexivity|]).
        repeat split; [apply grep_scalar; simpl; eauto|apply conf_scalar; simpl; eauto|constructor|constructor].
      - destruct Hc as (z & -> & I64 & (f & Ef & Hf) & Hr). exists (JInt z), (JFloat f). split; [reflexivity|].
        split; [simpl; rewrite Ef; reflexivity|].
        repeat split; [apply grep_scalar; simpl; eauto|apply conf_scalar; simpl; eauto 6|constructor|constructor].
      - destruct Hc as (f & -> & Hf & Hr). exists (JFloat f), (JFloat f). split; [reflexivity|].
        split; [simpl; rewrite Hf; reflexivity|].
        repeat split; [apply grep_scalar; simpl; eauto|apply conf_scalar; simpl; eauto 6|constructor|constructor].
      - destruct Hc as (s & -> & Hr). exists (JStr s), (JStr s). do 2 (split; [reflexivity|]).
        repeat split; [apply grep_scalar; simpl; eauto|apply conf_scalar; simpl; eauto 6|constructor|constructor].
      - destruct Hc as (s & -> & Hr). exists (JStr s), (JStr s). do 2 (split; [reflexivity|]).
        repeat split; [apply grep_scalar; simpl; eauto|apply conf_scalar; simpl; eauto 6|constructor|constructor].
      - destruct Hc as (d & -> & Hr). do 2 eexists. do 2 (split; [reflexivity|]).
        repeat split; [apply grep_scalar; simpl; eauto 6|apply conf_scalar; simpl; eauto 6|constructor|constructor].
      - destruct Hc as (d & -> & Hr). do 2 eexists. do 2 (split; [reflexivity|]).
        repeat split; [apply grep_scalar; simpl; eauto 6|apply conf_scalar; simpl; eauto 6|constructor|constructor].
      - destruct Hc as (d & -> & Hr). do 2 eexists. do 2 (split; [reflexivity|]).
        repeat split; [apply grep_scalar; simpl; eauto 6|apply conf_scalar; simpl; eauto 6|constructor|constructor].
      - destruct Hc as (z & -> & Hr). do 2 eexists. do 2 (split; [reflexivity|]).
        repeat split; [apply grep_scalar; simpl; eauto 6|apply conf_scalar; simpl; eauto 6|constructor|constructor].
      - destruct Hc as (d & -> & Hr).
        assert (Hd : go_dur_from (go_dur_to d) = Some d) by (apply go_round_trip; unfold min_int64, max_int64; lia).
        do 2 eexists. do 2 (split; [reflexivity|]).
        repeat split; [apply grep_scalar; simpl; eauto 6|apply conf_scalar; simpl; eauto 6|constructor|constructor]. }
    intros x. induction x as [x Hx|l IH|l IH|l IH] using goval_ind'; intros t S.
    - inversion S as [? ? Hs Hc| | |n a Hr|]; subst; try contradiction; [auto|].
      destruct Hr as (c & i & Ec & Ei & Li & Hi). exists (JStr (o_id i)), (JStr (o_id i)).
      split; [simpl; rewrite Ei; reflexivity|]. split; [reflexivity|].
      assert (D : gdesignates G R n (o_id i) a) by (exists c; auto).
      repeat split; [apply grep_ref; exact D|apply conf_ref; exists a; exact D|constructor|constructor].
    - inversion S as [? ? Hs Hc|t' mn mx ? Hz Hl| | |]; subst; [auto|].
      assert (Q : exists vs ws, go_ser_items (map (go_ser_value X G heap) l) t' = SOk vs /\
                  all_some (map via_json vs) = Some ws /\ Forall2 (written t') ws l).
      { clear S Hz. induction l as [|x l IHl]; [exists [], []; repeat split; constructor|].
        inversion IH as [|? ? I1 I2]; subst.
        destruct (I1 t' (Hl x (or_introl eq_refl))) as (v & w & Ev & Vw & W).
        destruct (IHl I2 (fun y Hy => Hl y (or_intror Hy))) as (vs & ws & Evs & Vws & Ws).
        exists (v :: vs), (w :: ws). cbn [map go_ser_items]. rewrite Ev. cbn [sbind]. rewrite Evs. cbn [sbind].
        split; [reflexivity|]. cbn [all_some]. rewrite Vw, Vws. split; [reflexivity|constructor; assumption]. }
      destruct Q as (vs & ws & Evs & Vws & Ws).
      exists (JArr vs), (JArr ws). split; [cbn [go_ser_value]; rewrite Evs; reflexivity|].
      split; [cbn [via_json]; rewrite Vws; reflexivity|].
      assert (A : forall w, In w ws -> conforms G (go_leaf X) known t' w /\ json_wf w /\ no_null w).
      { clear -Ws. induction Ws as [|w x ws l W _ IH]; intros w' H; [destruct H|].
        destruct H as [<-|H]; [split; [|split]; apply W|auto]. }
      split; [apply grep_array; clear -Ws; induction Ws; constructor; [apply H|assumption]|].
      split; [apply conf_array; [rewrite (Forall2_len _ _ _ Ws); exact Hz|intros w Hw; apply A; exact Hw]|].
      split; constructor; intros w Hw; apply A; exact Hw.
    - inversion S as [? ? Hs Hc| |t' ? ND Hl| |]; subst; [auto|].
      assert (Q : exists vs ws, go_ser_entries (map (fun kv => (fst kv, go_ser_value X G heap (snd kv))) l) t' = SOk vs /\
                  via_list vs = Some ws /\ Forall2 (fun kw kx => fst kw = fst kx /\ written t' (snd kw) (snd kx)) ws l).
      { clear S ND. induction l as [|[k x] l IHl]; [exists [], []; repeat split; constructor|].
        inversion IH as [|? ? I1 I2]; subst.
        destruct (I1 t' (Hl k x (or_introl eq_refl))) as (v & w & Ev & Vw & W).
        destruct (IHl I2 (fun k y Hy => Hl k y (or_intror Hy))) as (vs & ws & Evs & Vws & Ws).
        exists ((k, v) :: vs), ((k, w) :: ws). cbn [map go_ser_entries fst snd]. cbn [snd] in Ev.
        rewrite Ev. cbn [sbind]. rewrite Evs. cbn [sbind].
        split; [reflexivity|]. rewrite via_cons, Vw, Vws. split; [reflexivity|constructor; auto]. }
      destruct Q as (vs & ws & Evs & Vws & Ws).
      exists (JObj vs), (JObj ws). split; [cbn [go_ser_value]; rewrite Evs; reflexivity|].
      split; [rewrite via_obj, Vws; reflexivity|].
      assert (Kw : keys ws = keys l).
      { clear -Ws. induction Ws as [|[k w] [k' x] ws l [E _] _ IH]; [reflexivity|]. simpl in *. congruence. }
      assert (A : forall k w, In (k, w) ws -> exists x, In (k, x) l /\ written t' w x).
      { clear -Ws. induction Ws as [|[k w] [k' x] ws l [E W] _ IH]; intros k1 w1 H; [destruct H|].
        simpl in *. subst. destruct H as [H|H]; [injection H as <- <-; eauto|].
        destruct (IH _ _ H) as (y & Hy & Wy). eauto. }
      split.
      { apply grep_map; [exact ND|intros k; rewrite Kw; reflexivity|].
        intros k w x Hw Hx. destruct (A k w Hw) as (y & Hy & Wy).
        assert (x = y) by (apply In_lookup in Hx; [|exact ND]; apply In_lookup in Hy; [|exact ND]; congruence).
        subst. apply Wy. }
      split; [apply conf_map; intros k w Hw; destruct (A k w Hw) as (y & _ & Wy); apply Wy|].
      split; constructor.
      + rewrite Kw. exact ND.
      + intros k w Hw. destruct (A k w Hw) as (y & _ & Wy). apply Wy.
      + intros k w Hw. destruct (A k w Hw) as (y & _ & Wy). apply Wy.
    - inversion S as [? ? Hs Hc| | | |n e ? Ee Kf Hf]; subst; [auto|].
      destruct (fields_written l (e_props e)) as (t & w & E & V & W1 & W2 & Kw & C & Rp).
      + apply (proj1 Hjson). eapply embed_composite. exact Ee.
      + exact Kf.
      + intros p Hp. destruct (Hf p Hp) as (x & Lx & [[-> O]|[Nx Sx]]); exists x || exists GNil; (split; [exact Lx|]).
        * left. auto.
        * right. split; [exact Nx|]. rewrite Forall_forall in IH. apply (IH _ (lookup_In _ _ _ Lx)). exact Sx.
      + exists (JObj t), (JObj w). split.
        { cbn [go_ser_value]. rewrite Ee. unfold gattributes_of in E. rewrite E. reflexivity. }
        split; [rewrite via_obj, V; reflexivity|].
        split; [destruct Rp as [_ Rp]; eapply grep_embed; [exact Ee|exact Kf|exact Rp]|].
        split; [eapply conf_embed; [exact Ee|exact C]|auto].
  Qed.

  Lemma sat_field_ok ps fields :
    fields_sat X G (go_canon X) (gregistered X G gg) ps fields -> forall p, In p ps -> field_ok fields p.
  Proof.
    intros [_ H] p Hp. destruct (H p Hp) as (x & Lx & [[-> O]|[Nx Sx]]); [exists GNil|exists x]; (split; [exact Lx|]).
    - left. auto.
    - right. split; [exact Nx|]. apply value_written. exact Sx.
  Qed.

  Hypothesis Hsat : go_graph_sat X G (go_canon X) gg.

  Lemma registry_written c : In c (g_classes G) -> forall reg,
    (forall id a, In (id, a) reg -> In (id, a) (registry R c)) ->
    exists vs ws, go_ser_registry X G heap c reg = SOk vs /\ via_list vs = Some ws /\ keys ws = keys reg /\
      forall id w, In (id, w) ws -> exists a i o, In (id, a) reg /\ w = JObj o /\
        nth_error heap a = Some i /\ o_class i = c_name c /\ o_id i = id /\
        gmatches X (c_id_pattern c) id /\ json_wf w /\ no_null w /\
        fields_conform G (go_leaf X) known (c_props c) o /\
        gfields_rep X G (gdesignates G R) (c_props c) o (o_fields i).
  Proof.
    intros Hc. induction reg as [|[id a] reg IH]; intros Hr.
    - exists [], []. repeat split. intros ? ? [].
    - destruct IH as (vs & ws & Evs & Vws & Kws & A); [intros; apply Hr; right; auto|].
      destruct (proj2 (proj2 Hsat c Hc) id a (Hr id a (or_introl eq_refl))) as (Hm & i & Ei & Hcl & Hid & Hf).
      destruct (fields_written (o_fields i) (c_props c)) as (t & w & E & V & W1 & W2 & Kw & C & Rp).
      + apply (proj1 Hjson). apply class_composite. exact Hc.
      + apply Hf.
      + apply sat_field_ok. exact Hf.
      + exists ((id, JObj t) :: vs), ((id, JObj w) :: ws). split.
        { cbn [go_ser_registry]. rewrite Ei, Hid, str_eqb_refl. cbn [negb].
          unfold go_ser_instance. rewrite E. cbn [sbind]. rewrite Evs. reflexivity. }
        split; [rewrite via_cons, via_obj, V, Vws; reflexivity|].
        split; [simpl; rewrite Kws; reflexivity|].
        intros id' w' [Ew|Hw].
        * injection Ew as <- <-. exists a, i, w. split; [left; reflexivity|]. repeat split; auto; apply Rp.
        * destruct (A _ _ Hw) as (a' & i' & o' & Ha' & Hrest). exists a', i', o'. split; [right; exact Ha'|exact Hrest].
  Qed.

  Lemma registries_written : forall cs target target',
    incl cs (g_classes G) -> NoDup (map go_cls_key cs) ->
    via_list target = Some target' -> NoDup (keys target') ->
    (forall c, In c cs -> ~ In (go_cls_key c) (keys target')) ->
    exists t w, go_ser_registries X G heap cs R target = SOk t /\ via_list t = Some w /\ NoDup (keys w) /\
      (forall k, ~ In k (map go_cls_key cs) -> lookup k w = lookup k target') /\
      (forall k y, In (k, y) w -> In (k, y) target' \/ (json_wf y /\ no_null y)) /\
      forall c, In c cs ->
        (registry R c = [] /\ lookup (go_cls_key c) w = None) \/
        exists ws, lookup (go_cls_key c) w = Some (JObj ws) /\ keys ws = keys (registry R c) /\
          forall id w, In (id, w) ws -> exists a i o, In (id, a) (registry R c) /\ w = JObj o /\
            nth_error heap a = Some i /\ o_class i = c_name c /\ o_id i = id /\
            gmatches X (c_id_pattern c) id /\ json_wf w /\ no_null w /\
            fields_conform G (go_leaf X) known (c_props c) o /\
            gfields_rep X G (gdesignates G R) (c_props c) o (o_fields i).
  Proof.
    induction cs as [|c cs IH]; intros target target' Inc ND V NT F.
    - exists target, target'. simpl. repeat split; auto. intros c [].
    - inversion ND as [|? ? N1 N2]; subst.
      assert (Hc : In c (g_classes G)) by (apply Inc; left; reflexivity).
      assert (Inc' : incl cs (g_classes G)) by (intros c' Hc'; apply Inc; right; exact Hc').
      cbn [go_ser_registries map]. fold (registry R c). destruct (registry R c) as [|e reg] eqn:Er.
      + destruct (IH target target' Inc' N2 V NT) as (t & w & E & Vw & Nw & Ko & Kw & Kc).
        { intros c' Hc'. apply F. right. exact Hc'. }
        exists t, w. split; [exact E|]. split; [exact Vw|]. split; [exact Nw|]. split; [|split; [exact Kw|]].
        * intros k Hk. apply Ko. simpl in Hk. tauto.
        * intros c' [<-|Hc']; [|auto]. left. split; [exact Er|]. rewrite Ko by exact N1.
          apply lookup_None. apply F. left. reflexivity.
      + destruct (registry_written c Hc (e :: reg)) as (vs & ws & Evs & Vws & Kws & A).
        { intros id a H. rewrite Er. exact H. }
        rewrite Evs. cbn [sbind]. fold (go_cls_key c).
        destruct (IH (upsert (go_cls_key c) (JObj vs) target) (upsert (go_cls_key c) (JObj ws) target') Inc' N2)
          as (t & w & E & Vw & Nw & Ko & Kw & Kc).
        { apply via_upsert; [rewrite via_obj, Vws; reflexivity|exact V]. }
        { apply NoDup_keys_upsert. exact NT. }
        { intros c' Hc' C. apply keys_upsert_In in C as [C|C].
          - apply N1. rewrite <- C. apply in_map. exact Hc'.
          - exact (F c' (or_intror Hc') C). }
        exists t, w. split; [exact E|]. split; [exact Vw|]. split; [exact Nw|]. split; [|split].
        * intros k Hk. simpl in Hk. rewrite Ko by tauto. apply lookup_upsert_neq. tauto.
        * intros k y Hy. apply Kw in Hy as [Hy|Hy]; [|right; exact Hy].
          apply In_lookup in Hy; [|apply NoDup_keys_upsert; exact NT].
          destruct (list_eq_dec N.eq_dec k (go_cls_key c)) as [->|Nk].
          -- rewrite lookup_upsert_eq in Hy. injection Hy as <-. right.
             split; constructor.
             ++ rewrite Kws, <- Er. apply (proj1 (proj2 Hsat c Hc)).
             ++ intros k y Hy. destruct (A k y Hy) as (a & i & o & _ & _ & _ & _ & _ & _ & W & _). exact W.
             ++ intros k y Hy. destruct (A k y Hy) as (a & i & o & _ & _ & _ & _ & _ & _ & _ & W & _). exact W.
          -- rewrite lookup_upsert_neq in Hy by auto. left. apply lookup_In. exact Hy.
        * intros c' [<-|Hc']; [|auto]. right. exists ws. split; [rewrite Ko by exact N1; apply lookup_upsert_eq|].
          rewrite Er. split; [exact Kws|exact A].
  Qed.

  Theorem graph_written : exists v l,
    go_ser_graph X G gg = SOk v /\ via_json v = Some (JObj l) /\
    json_wf (JObj l) /\ no_null (JObj l) /\ go_conforms X G (JObj l) /\ go_graph_rep X G l gg.
  Proof.
    pose proof (NoDup_app_parts _ _ (proj2 Hjson)) as (D1 & D2 & D3).
    destruct (fields_written (gg_fields gg) (g_props G) D1 (proj1 (proj1 Hsat)) (sat_field_ok _ _ (proj1 Hsat)))
      as (t & w & E & V & W1 & W2 & Kw & C & Rp).
    inversion W1 as [| | | | | |? Wd Wl]; subst. inversion W2 as [| | | | |? Nl]; subst.
    destruct (registries_written (g_classes G) t w) as (t2 & w2 & E2 & V2 & N2 & Ko & K2 & Kc).
    { intros c Hc. exact Hc. }
    { exact D2. }
    { exact V. }
    { exact Wd. }
    { intros c Hc Hk. apply Kw in Hk. apply (D3 _ Hk). apply in_map. exact Hc. }
    assert (Keep : forall p, In p (g_props G) -> lookup (p_json p) w2 = lookup (p_json p) w).
    { intros p Hp. apply Ko. apply D3. apply in_map. exact Hp. }
    exists (JObj t2), w2. split; [unfold go_ser_graph; rewrite E; cbn [sbind]; rewrite E2; reflexivity|].
    split; [rewrite via_obj, V2; reflexivity|].
    split; [constructor; [exact N2|intros k y Hy; apply K2 in Hy as [Hy|[Hy _]]; eauto]|].
    split; [constructor; intros k y Hy; apply K2 in Hy as [Hy|[_ Hy]]; eauto|].
    assert (L : forall n id, known n id -> listed G go_cls_key w2 n id).
    { intros n id (a & c & Ec & La). destruct (find_class_In _ _ _ Ec) as [Hc _].
      destruct (Kc c Hc) as [[R0 _]|(ws & Lw & Kws & A)]; [rewrite R0 in La; discriminate|].
      exists c, ws. split; [exact Ec|]. split; [exact Lw|]. rewrite Kws. eapply lookup_Some_key. exact La. }
    split.
    - exists w2. split; [reflexivity|]. split.
      + intros c Hc. destruct (Kc c Hc) as [[_ L0]|(ws & Lw & Kws & A)]; [left; exact L0|].
        right. exists ws. split; [exact Lw|]. intros id y Hy.
        destruct (A id y Hy) as (a & i & o & Ha & -> & Hi & Hcl & Hid & Hm & _ & _ & Co & _).
        split; [exact Hm|]. exists o. split; [reflexivity|]. eapply fields_conform_mono; [exact L|exact Co].
      + intros p Hp. unfold absent. rewrite Keep by exact Hp.
        exact (fields_conform_mono X G known (listed G go_cls_key w2) _ w L C p Hp).
    - split.
      + destruct Rp as [Rp1 Rp2]. split; [exact Rp1|]. intros p Hp. rewrite Keep by exact Hp. apply Rp2. exact Hp.
      + intros c Hc. split; [apply (proj1 (proj2 Hsat c Hc))|].
        destruct (Kc c Hc) as [[R0 L0]|(ws & Lw & Kws & A)]; [left; auto|].
        right. exists ws. split; [exact Lw|]. split; [intros id; rewrite Kws; reflexivity|].
        intros id y a Hy Ha. destruct (A id y Hy) as (a' & i & o & Ha' & -> & Hi & Hcl & Hid & _ & _ & _ & _ & Rpo).
        assert (a = a').
        { pose proof (proj1 (proj2 Hsat c Hc)) as Nr.
          apply In_lookup in Ha; [|exact Nr]. apply In_lookup in Ha'; [|exact Nr]. congruence. }
        subst a'. exists o, i. auto.
  Qed.
End Ser.
