(** C19: the generated C++ serializer, and the round trip. *)
From Verif Require Import Base M_Naming M_Errors M_Dec M_Schema M_Duration M_Num M_CppTime M_CppGen S_Conform S_Common S_CppGen P_Common
  P_CppTime P_CppBase P_CppParse P_CppGraph P_DurPrint.
From Verif Require P_PyClean.
From Coq Require Import String List Arith NArith ZArith Bool Lia Floats.SpecFloat Permutation.
Import ListNotations.

Section cval_ind.
  Variable T : Type.
  Variable P : cval T -> Prop.
  Hypothesis Hatom : forall x, (match x with CList _ | CMap _ | CStruct _ => False | _ => True end) -> P x.
  Hypothesis Hlist : forall l, Forall P l -> P (CList l).
  Hypothesis Hmap : forall l, Forall (fun kv => P (snd kv)) l -> P (CMap l).
  Hypothesis Hstruct : forall l, Forall (fun kv => P (snd kv)) l -> P (CStruct l).
  Fixpoint cval_ind' (x : cval T) : P x :=
    match x with
    | CList l => Hlist l ((fix go l : Forall P l :=
        match l with [] => Forall_nil _ | x :: l' => Forall_cons x (cval_ind' x) (go l') end) l)
    | CMap l => Hmap l ((fix go l : Forall (fun kv => P (snd kv)) l :=
        match l with [] => Forall_nil _ | kv :: l' => Forall_cons kv (cval_ind' (snd kv)) (go l') end) l)
    | CStruct l => Hstruct l ((fix go l : Forall (fun kv => P (snd kv)) l :=
        match l with [] => Forall_nil _ | kv :: l' => Forall_cons kv (cval_ind' (snd kv)) (go l') end) l)
    | x => Hatom x I
    end.
End cval_ind.

Section Ser.
  Variable X : cext.
  Variable G : graph.
  Hypothesis Hjson : cpp_json_distinct G.
  Hypothesis Hvisible : registries_visible G.
  Hypothesis Hflag : flag_cleared X.
  Variable g : cgraph (cx_time X).
  Notation val := (cval (cx_time X)).
  Notation heap := (cg_heap g).
  Notation R := (cg_registries g).
  Let known (n id : str) : Prop := exists a, cdesignates G R n id a.

  (** [w] is what a reader sees for [x]. *)
  Definition written (t : ty) (w : jval) (x : val) : Prop :=
    crep X G (cdesignates G R) t w x /\ conforms G (cpp_leaf X) known t w /\ json_wf w /\ no_null w.
  Definition serialized (t : ty) (x : val) : Prop :=
    exists v, cpp_ser_value X G heap x t = CDone v /\ written t v x.

  Lemma lookup_gattributes fields k :
    lookup k (cattributes_of X G heap fields) =
    match lookup k fields with Some x => Some (x, cpp_ser_value X G heap x) | None => None end.
  Proof.
    unfold cattributes_of. induction fields as [|[k' x] fields IH]; simpl; [reflexivity|].
    destruct (str_eqb k k'); [reflexivity|exact IH].
  Qed.

  Definition field_ok (fields : list (str * val)) (p : prop) : Prop :=
    exists x, lookup (p_name p) fields = Some x /\
      ((x = CNil /\ p_optional p = true) \/ (x <> CNil /\ serialized (p_type p) x)).

  Lemma ser_properties fields : forall ps target,
    NoDup (map p_json ps) -> (forall p, In p ps -> field_ok fields p) ->
    NoDup (keys target) ->
    (forall p, In p ps -> ~ In (p_json p) (keys target)) ->
    exists w, cpp_ser_properties X ps (cattributes_of X G heap fields) target = CDone w /\
      NoDup (keys w) /\
      (forall k, ~ In k (map p_json ps) -> lookup k w = lookup k target) /\
      (forall p, In p ps -> exists x, lookup (p_name p) fields = Some x /\
         ((x = CNil /\ p_optional p = true /\ lookup (p_json p) w = None) \/
          (x <> CNil /\ exists y, lookup (p_json p) w = Some y /\ written (p_type p) y x))).
  Proof.
    induction ps as [|p ps IH]; intros target ND H NT F.
    - exists target. simpl. repeat split; auto. intros p [].
    - inversion ND as [|? ? N1 N2]; subst.
      assert (Hps : forall p, In p ps -> field_ok fields p) by (intros; apply H; right; auto).
      simpl. unfold cpp_ser_property. rewrite lookup_gattributes.
      destruct (H p (or_introl eq_refl)) as (x & Lx & Hx). rewrite Lx.
      destruct Hx as [[-> O]|[Nx (y & Sv & Wy)]].
      + rewrite O. cbn [csbind].
        destruct (IH target N2 Hps NT) as (w & E & Nw & Ko & Kp).
        { intros q Hq. apply F. right. exact Hq. }
        exists w. split; [exact E|]. split; [exact Nw|]. split.
        * intros k Hk. apply Ko. simpl in Hk. tauto.
        * intros q [<-|Hq]; [|auto]. exists CNil. split; [exact Lx|]. left. repeat split; auto.
          rewrite Ko by exact N1. apply lookup_None. apply F. left. reflexivity.
      + assert (Hm : forall A (a b : A), match p_optional p, x with true, CNil => a | _, _ => b end = b).
        { intros A a b. destruct (p_optional p), x; congruence. }
        rewrite Hm, Sv. cbn [csbind].
        destruct (IH (upsert (p_json p) y target) N2 Hps) as (w & E & Nw & Ko & Kp).
        { apply NoDup_keys_upsert. exact NT. }
        { intros q Hq C. apply keys_upsert_In in C as [C|C].
          - apply N1. rewrite <- C. apply in_map. exact Hq.
          - exact (F q (or_intror Hq) C). }
        exists w. split; [exact E|]. split; [exact Nw|]. split.
        * intros k Hk. simpl in Hk. rewrite Ko by tauto. apply lookup_upsert_neq. tauto.
        * intros q [<-|Hq]; [|auto]. exists x. split; [exact Lx|]. right. split; [exact Nx|]. exists y.
          split; [|exact Wy]. rewrite Ko by exact N1. apply lookup_upsert_eq.
  Qed.

  (** Starting from an empty object: what is written has no other keys. *)
  Lemma ser_properties_keys fields : forall ps target t, 
    cpp_ser_properties X ps (cattributes_of X G heap fields) target = CDone t ->
    forall k, In k (keys t) -> In k (keys target) \/ In k (map p_json ps).
  Proof.
    induction ps as [|p ps IH]; intros target t H k Hk; simpl in H.
    - injection H as <-. auto.
    - destruct (cpp_ser_property X p _ target) as [t1|] eqn:E; [|discriminate]. cbn [csbind] in H.
      apply (IH _ _ H) in Hk as [Hk|Hk]; [|simpl; auto].
      unfold cpp_ser_property in E. destruct (lookup _ _) as [[v s]|]; [|discriminate].
      assert (D : t1 = target \/ exists x, t1 = upsert (p_json p) x target).
      { destruct (p_optional p), v; try (injection E as <-; left; reflexivity);
        (destruct (s (p_type p)) as [x|]; [|discriminate]); injection E as <-; right; eauto. }
      destruct D as [->|[x ->]]; [auto|]. apply keys_upsert_In in Hk as [->|Hk]; simpl; auto.
  Qed.

  Lemma fields_written fields ps : NoDup (map p_json ps) ->
    keys fields = map p_name ps ->
    (forall p, In p ps -> field_ok fields p) ->
    exists w, cpp_ser_properties X ps (cattributes_of X G heap fields) [] = CDone w /\
      json_wf (JObj w) /\ no_null (JObj w) /\
      (forall k, In k (keys w) -> In k (map p_json ps)) /\
      fields_conform G (cpp_leaf X) known ps w /\ cfields_rep X G (cdesignates G R) ps w fields.
  Proof.
    intros ND Kf H.
    destruct (ser_properties fields ps [] ND H (NoDup_nil _) (fun _ _ C => C)) as (w & E & Nw & Ko & Kp).
    exists w. split; [exact E|].
    assert (Kw : forall k, In k (keys w) -> In k (map p_json ps)).
    { intros k Hk. apply (ser_properties_keys _ _ _ _ E) in Hk as [[]|Hk]. exact Hk. }
    assert (A : forall k y, In (k, y) w -> json_wf y /\ no_null y).
    { intros k y Hy. assert (Hk := Kw k (In_keys _ _ _ Hy)). apply in_map_iff in Hk as (p & <- & Hp).
      apply In_lookup in Hy; [|exact Nw].
      destruct (Kp p Hp) as (x & Lx & [(_ & _ & L)|(_ & y' & L & W)]); [congruence|].
      rewrite Hy in L. injection L as <-. destruct W as (_ & _ & W1 & W2). auto. }
    split; [constructor; [exact Nw|intros; eapply A; eauto]|].
    split; [constructor; intros; eapply A; eauto|].
    split; [exact Kw|]. split; [|split; [exact Kf|]].
    - intros p Hp. destruct (Kp p Hp) as (x & Lx & [(-> & O & L)|(Nx & y & L & W)]).
      + left. split; [exact O|left; exact L].
      + right. exists y. split; [exact L|]. destruct W as (_ & C & _ & W2). split; [intros ->; inversion W2|exact C].
    - intros p Hp. destruct (Kp p Hp) as (x & Lx & [(-> & O & L)|(Nx & y & L & W)]).
      + left. auto.
      + right. exists y, x. destruct W as (W1 & _). auto.
  Qed.

  (** A composite with a set property is not written as null. *)
  Lemma rep_shown ps w fields : cfields_rep X G (cdesignates G R) ps w fields ->
    (exists p x, In p ps /\ lookup (p_name p) fields = Some x /\ x <> CNil) -> w <> [].
  Proof.
    intros [_ H] (p & x & Hp & L & N) ->. destruct (H p Hp) as [(_ & L')|(v & y & E & _)]; [congruence|discriminate].
  Qed.

  Lemma composite_value ps w fields : cfields_rep X G (cdesignates G R) ps w fields ->
    (forall k, In k (keys w) -> In k (map p_json ps)) -> shown X ps fields ->
    cpp_composite_value ps w = JObj w.
  Proof.
    intros Rp Kw [->|S].
    - destruct w as [|[k v] w]; [reflexivity|]. destruct (Kw k (or_introl eq_refl)).
    - apply (rep_shown _ _ _ Rp) in S. destruct ps as [|p ps], w; try congruence; [|reflexivity].
      destruct (Kw (fst p) (or_introl eq_refl)).
  Qed.

  Lemma time_written k f x : time_canon X k f x ->
    cpp_ser_time X k f x = CDone (JStr (written_time X k f x)).
  Proof.
    intros [F _]. unfold cpp_ser_time, written_time. destruct f as [|c f]; [reflexivity|].
    destruct (cx_date_h X) eqn:D; [reflexivity|].
    destruct F as [F|[F|[F1 F2]]]; [discriminate|congruence|].
    rewrite tm_fits; [reflexivity | rewrite <- !bytes_size; exact F1 | rewrite <- !bytes_size; exact F2].
  Qed.

  Lemma value_written : forall x t, csat X G (cpp_canon X) (cregistered X G g) (shown X) t x -> serialized t x.
  Proof.
    assert (Hscalar : forall x t, scalar t = true -> cpp_canon X t x -> serialized t x).
    { intros x t Hs Hc. destruct t; try discriminate; simpl in Hc.
      - destruct Hc as [b ->]. exists (JBool b). split; [reflexivity|].
        repeat split; [apply crep_scalar; simpl; eauto 6|apply conf_scalar; simpl; eauto 6|constructor|constructor].
      - destruct Hc as (z & -> & I64 & Hr). exists (JInt z). split; [reflexivity|].
        repeat split; [apply crep_scalar; simpl; unfold whole; eauto 8|apply conf_scalar; simpl; unfold whole; eauto 8|constructor|constructor].
      - destruct Hc as (f & -> & Hr). exists (JFloat f). split; [reflexivity|].
        repeat split; [apply crep_scalar; simpl; unfold double; eauto 8|apply conf_scalar; simpl; unfold double; eauto 8|constructor|constructor].
      - destruct Hc as (s & -> & Hr). exists (JStr s). split; [reflexivity|].
        repeat split; [apply crep_scalar; simpl; eauto 6|apply conf_scalar; simpl; eauto 6|constructor|constructor].
      - destruct Hc as (s & -> & Hr). exists (JStr s). split; [reflexivity|].
        repeat split; [apply crep_scalar; simpl; eauto 6|apply conf_scalar; simpl; eauto 6|constructor|constructor].
      - destruct Hc as (d & -> & Hr). eexists. split; [apply (time_written _ _ _ Hr)|]. destruct Hr as [_ Hr].
        repeat split; [apply crep_scalar; simpl; eauto 6|apply conf_scalar; simpl; eauto 6|constructor|constructor].
      - destruct Hc as (d & -> & Hr). eexists. split; [apply (time_written _ _ _ Hr)|]. destruct Hr as [_ Hr].
        repeat split; [apply crep_scalar; simpl; eauto 6|apply conf_scalar; simpl; eauto 6|constructor|constructor].
      - destruct Hc as (d & -> & Hr). eexists. split; [apply (time_written _ _ _ Hr)|]. destruct Hr as [_ Hr].
        repeat split; [apply crep_scalar; simpl; eauto 6|apply conf_scalar; simpl; eauto 6|constructor|constructor].
      - destruct Hc as (z & -> & Hr). exists (JStr z). split; [reflexivity|].
        repeat split; [apply crep_scalar; simpl; eauto 6|apply conf_scalar; simpl; eauto 6|constructor|constructor].
      - destruct Hc as (d & -> & Hr).
        destruct (cpp_round_trip d) as (s & Es & Hd); [unfold min_int64, max_int64; lia|].
        exists (JStr s). split; [simpl; rewrite Es; reflexivity|].
        assert (Hd' : cpp_dur_from (cx_flag X s) s = CppOk d) by (rewrite Hflag; exact Hd).
        repeat split; [apply crep_scalar; simpl; eauto 6|apply conf_scalar; simpl; eauto 6|constructor|constructor]. }
    intros x. induction x as [x Hx|l IH|l IH|l IH] using cval_ind'; intros t S.
    - inversion S as [? ? Hs Hc| | |n a Hr|]; subst; try contradiction; [auto|].
      destruct Hr as (c & i & Ec & Ei & Li & Hi). exists (JStr (i_id i)).
      split; [simpl; rewrite Ei; reflexivity|].
      assert (D : cdesignates G R n (i_id i) a) by (exists c; auto).
      repeat split; [apply crep_ref; exact D|apply conf_ref; exists a; exact D|constructor|constructor].
    - inversion S as [? ? Hs Hc|t' mn mx ? Hz Hl| | |]; subst; [auto|].
      assert (Q : exists ws, cpp_ser_items (map (cpp_ser_value X G heap) l) t' = CDone ws /\ Forall2 (written t') ws l).
      { clear S Hz. induction l as [|x l IHl]; [exists []; repeat split; constructor|].
        inversion IH as [|? ? I1 I2]; subst.
        destruct (I1 t' (Hl x (or_introl eq_refl))) as (w & Ev & W).
        destruct (IHl I2 (fun y Hy => Hl y (or_intror Hy))) as (ws & Evs & Ws).
        exists (w :: ws). cbn [map cpp_ser_items]. rewrite Ev. cbn [csbind]. rewrite Evs. cbn [csbind].
        split; [reflexivity|constructor; assumption]. }
      destruct Q as (ws & Evs & Ws).
      exists (JArr ws). split; [cbn [cpp_ser_value]; rewrite Evs; reflexivity|].
      assert (A : forall w, In w ws -> conforms G (cpp_leaf X) known t' w /\ json_wf w /\ no_null w).
      { clear -Ws. induction Ws as [|w x ws l W _ IH]; intros w' H; [destruct H|].
        destruct H as [<-|H]; [split; [|split]; apply W|auto]. }
      split; [apply crep_array; clear -Ws; induction Ws; constructor; [apply H|assumption]|].
      split; [apply conf_array; [rewrite (Forall2_len _ _ _ Ws); exact Hz|intros w Hw; apply A; exact Hw]|].
      split; constructor; intros w Hw; apply A; exact Hw.
    - inversion S as [? ? Hs Hc| |t' ? ND Hl| |]; subst; [auto|].
      assert (Q : exists ws, cpp_ser_entries (map (fun kv => (fst kv, cpp_ser_value X G heap (snd kv))) l) t' = CDone ws /\
                  Forall2 (fun kw kx => fst kw = fst kx /\ written t' (snd kw) (snd kx)) ws l).
      { clear S ND. induction l as [|[k x] l IHl]; [exists []; repeat split; constructor|].
        inversion IH as [|? ? I1 I2]; subst.
        destruct (I1 t' (Hl k x (or_introl eq_refl))) as (w & Ev & W).
        destruct (IHl I2 (fun k y Hy => Hl k y (or_intror Hy))) as (ws & Evs & Ws).
        exists ((k, w) :: ws). cbn [map cpp_ser_entries fst snd]. cbn [snd] in Ev.
        rewrite Ev. cbn [csbind]. rewrite Evs. cbn [csbind].
        split; [reflexivity|constructor; auto]. }
      destruct Q as (ws & Evs & Ws).
      exists (JObj ws). split; [cbn [cpp_ser_value]; rewrite Evs; reflexivity|].
      assert (Kw : keys ws = keys l).
      { clear -Ws. induction Ws as [|[k w] [k' x] ws l [E _] _ IH]; [reflexivity|]. simpl in *. congruence. }
      assert (A : forall k w, In (k, w) ws -> exists x, In (k, x) l /\ written t' w x).
      { clear -Ws. induction Ws as [|[k w] [k' x] ws l [E W] _ IH]; intros k1 w1 H; [destruct H|].
        simpl in *. subst. destruct H as [H|H]; [injection H as <- <-; eauto|].
        destruct (IH _ _ H) as (y & Hy & Wy). eauto. }
      split.
      { apply crep_map; [exact ND|intros k; rewrite Kw; reflexivity|].
        intros k w x Hw Hx. destruct (A k w Hw) as (y & Hy & Wy).
        assert (x = y) by (apply In_lookup in Hx; [|exact ND]; apply In_lookup in Hy; [|exact ND]; congruence).
        subst. apply Wy. }
      split; [apply conf_map; intros k w Hw; destruct (A k w Hw) as (y & _ & Wy); apply Wy|].
      split; constructor.
      + rewrite Kw. exact ND.
      + intros k w Hw. destruct (A k w Hw) as (y & _ & Wy). apply Wy.
      + intros k w Hw. destruct (A k w Hw) as (y & _ & Wy). apply Wy.
    - inversion S as [? ? Hs Hc| | | |n e ? Ee Kf Hf Sh]; subst; [auto|].
      destruct (fields_written l (e_props e)) as (w & E & W1 & W2 & Kw & C & Rp).
      + apply (proj1 Hjson). eapply embed_composite. exact Ee.
      + exact Kf.
      + intros p Hp. destruct (Hf p Hp) as (x & Lx & [[-> O]|[Nx Sx]]); exists x || exists CNil; (split; [exact Lx|]).
        * left. auto.
        * right. split; [exact Nx|]. rewrite Forall_forall in IH. apply (IH _ (lookup_In _ _ _ Lx)). exact Sx.
      + exists (JObj w). split.
        { cbn [cpp_ser_value]. rewrite Ee. unfold cattributes_of in E. rewrite E. cbn [csbind].
          rewrite (composite_value _ _ _ Rp Kw Sh). reflexivity. }
        split; [destruct Rp as [_ Rp]; eapply crep_embed; [exact Ee|exact Kf|exact Rp]|].
        split; [eapply conf_embed; [exact Ee|exact C]|auto].
  Qed.

  Lemma sat_field_ok ps fields :
    cfields_sat X G (cpp_canon X) (cregistered X G g) (shown X) ps fields -> forall p, In p ps -> field_ok fields p.
  Proof.
    intros [_ H] p Hp. destruct (H p Hp) as (x & Lx & [[-> O]|[Nx Sx]]); [exists CNil|exists x]; (split; [exact Lx|]).
    - left. auto.
    - right. split; [exact Nx|]. apply value_written. exact Sx.
  Qed.

  Hypothesis Hsat : cpp_graph_sat X G (cpp_canon X) (shown X) g.

  Lemma registry_written c : In c (g_classes G) -> forall reg,
    (forall id a, In (id, a) reg -> In (id, a) (cregistry R c)) ->
    exists ws, cpp_ser_registry X G heap c reg = CDone ws /\ keys ws = keys reg /\
      forall id w, In (id, w) ws -> exists a i o, In (id, a) reg /\ w = JObj o /\
        nth_error heap a = Some i /\ i_class i = c_name c /\ i_id i = id /\
        cmatches X (c_id_pattern c) id /\ json_wf w /\ no_null w /\
        fields_conform G (cpp_leaf X) known (c_props c) o /\
        cfields_rep X G (cdesignates G R) (c_props c) o (i_fields i).
  Proof.
    intros Hc. induction reg as [|[id a] reg IH]; intros Hr.
    - exists []. repeat split. intros ? ? [].
    - destruct IH as (ws & Evs & Kws & A); [intros; apply Hr; right; auto|].
      destruct (proj2 (proj2 Hsat c Hc) id a (Hr id a (or_introl eq_refl))) as (Hm & i & Ei & Hcl & Hid & Hf & Sh).
      destruct (fields_written (i_fields i) (c_props c)) as (w & E & W1 & W2 & Kw & C & Rp).
      + apply (proj1 Hjson). apply class_composite. exact Hc.
      + apply Hf.
      + apply sat_field_ok. exact Hf.
      + exists ((id, JObj w) :: ws). split.
        { cbn [cpp_ser_registry]. rewrite Ei, Hid, str_eqb_refl. cbn [negb].
          unfold cpp_ser_instance. rewrite E. cbn [csbind]. rewrite (composite_value _ _ _ Rp Kw Sh), Evs. reflexivity. }
        split; [simpl; rewrite Kws; reflexivity|].
        intros id' w' [Ew|Hw].
        * injection Ew as <- <-. exists a, i, w. split; [left; reflexivity|]. repeat split; auto; apply Rp.
        * destruct (A _ _ Hw) as (a' & i' & o' & Ha' & Hrest). exists a', i', o'. split; [right; exact Ha'|exact Hrest].
  Qed.

  Lemma not_hidden c : In c (g_classes G) -> hides_result G c = false.
  Proof.
    intros Hc. unfold hides_result. destruct (str_eqb _ _) eqn:E; [|reflexivity]. exfalso. apply str_eqb_eq in E. unfold as_value in E.
    apply app_inv_tail in E. exact (Hvisible c Hc E).
  Qed.

  Lemma registries_written : forall cs target,
    incl cs (g_classes G) -> NoDup (map cpp_cls_key cs) -> NoDup (keys target) ->
    (forall c, In c cs -> ~ In (cpp_cls_key c) (keys target)) ->
    exists w, cpp_ser_registries X G heap cs R target = CDone w /\ NoDup (keys w) /\
      (forall k, ~ In k (map cpp_cls_key cs) -> lookup k w = lookup k target) /\
      (forall k y, In (k, y) w -> In (k, y) target \/ (json_wf y /\ no_null y)) /\
      forall c, In c cs ->
        (cregistry R c = [] /\ lookup (cpp_cls_key c) w = None) \/
        exists ws, lookup (cpp_cls_key c) w = Some (JObj ws) /\ keys ws = keys (cregistry R c) /\
          forall id w, In (id, w) ws -> exists a i o, In (id, a) (cregistry R c) /\ w = JObj o /\
            nth_error heap a = Some i /\ i_class i = c_name c /\ i_id i = id /\
            cmatches X (c_id_pattern c) id /\ json_wf w /\ no_null w /\
            fields_conform G (cpp_leaf X) known (c_props c) o /\
            cfields_rep X G (cdesignates G R) (c_props c) o (i_fields i).
  Proof.
    induction cs as [|c cs IH]; intros target Inc ND NT F.
    - exists target. simpl. repeat split; auto. intros c [].
    - inversion ND as [|? ? N1 N2]; subst.
      assert (Hc : In c (g_classes G)) by (apply Inc; left; reflexivity).
      assert (Inc' : incl cs (g_classes G)) by (intros c' Hc'; apply Inc; right; exact Hc').
      cbn [cpp_ser_registries map]. fold (cregistry R c). destruct (cregistry R c) as [|e reg] eqn:Er.
      + destruct (IH target Inc' N2 NT) as (w & E & Nw & Ko & Kw & Kc).
        { intros c' Hc'. apply F. right. exact Hc'. }
        exists w. split; [exact E|]. split; [exact Nw|]. split; [|split; [exact Kw|]].
        * intros k Hk. apply Ko. simpl in Hk. tauto.
        * intros c' [<-|Hc']; [|auto]. left. split; [exact Er|]. rewrite Ko by exact N1.
          apply lookup_None. apply F. left. reflexivity.
      + destruct (registry_written c Hc (e :: reg)) as (ws & Evs & Kws & A).
        { intros id a H. rewrite Er. exact H. }
        rewrite Evs. cbn [csbind]. rewrite (not_hidden c Hc). fold (cpp_cls_key c).
        destruct (IH (upsert (cpp_cls_key c) (JObj ws) target) Inc' N2)
          as (w & E & Nw & Ko & Kw & Kc).
        { apply NoDup_keys_upsert. exact NT. }
        { intros c' Hc' C. apply keys_upsert_In in C as [C|C].
          - apply N1. rewrite <- C. apply in_map. exact Hc'.
          - exact (F c' (or_intror Hc') C). }
        exists w. split; [exact E|]. split; [exact Nw|]. split; [|split].
        * intros k Hk. simpl in Hk. rewrite Ko by tauto. apply lookup_upsert_neq. tauto.
        * intros k y Hy. apply Kw in Hy as [Hy|Hy]; [|right; exact Hy].
          apply In_lookup in Hy; [|apply NoDup_keys_upsert; exact NT].
          destruct (list_eq_dec N.eq_dec k (cpp_cls_key c)) as [->|Nk].
          -- rewrite lookup_upsert_eq in Hy. injection Hy as <-. right.
             split; constructor.
             ++ rewrite Kws, <- Er. apply (proj1 (proj2 Hsat c Hc)).
             ++ intros k y Hy. destruct (A k y Hy) as (a & i & o & _ & _ & _ & _ & _ & _ & W & _). exact W.
             ++ intros k y Hy. destruct (A k y Hy) as (a & i & o & _ & _ & _ & _ & _ & _ & _ & W & _). exact W.
          -- rewrite lookup_upsert_neq in Hy by auto. left. apply lookup_In. exact Hy.
        * intros c' [<-|Hc']; [|auto]. right. exists ws. split; [rewrite Ko by exact N1; apply lookup_upsert_eq|].
          rewrite Er. split; [exact Kws|exact A].
  Qed.

  Theorem graph_written : graph_shown X G g -> exists l,
    cpp_ser_graph X G g = CDone (JObj l) /\
    json_wf (JObj l) /\ no_null (JObj l) /\ cpp_conforms X G (JObj l) /\ cpp_graph_rep X G l g.
  Proof.
    intros Sh. pose proof (NoDup_app_parts _ _ (proj2 Hjson)) as (D1 & D2 & D3).
    destruct (fields_written (cg_fields g) (g_props G) D1 (proj1 (proj1 Hsat)) (sat_field_ok _ _ (proj1 Hsat)))
      as (w & E & W1 & W2 & Kw & C & Rp).
    inversion W1 as [| | | | | |? Wd Wl]; subst. inversion W2 as [| | | | |? Nl]; subst.
    destruct (registries_written (g_classes G) w) as (w2 & E2 & N2 & Ko & K2 & Kc).
    { intros c Hc. exact Hc. }
    { exact D2. }
    { exact Wd. }
    { intros c Hc Hk. apply Kw in Hk. apply (D3 _ Hk). apply in_map. exact Hc. }
    assert (Keep : forall p, In p (g_props G) -> lookup (p_json p) w2 = lookup (p_json p) w).
    { intros p Hp. apply Ko. apply D3. apply in_map. exact Hp. }
    assert (Ev : match g_props G, g_classes G, w2 with
                 | [], [], _ => JObj [] | _, _, [] => JNull | _, _, _ => JObj w2 end = JObj w2).
    { destruct Sh as [[Ep Ec]|[S|(c & Hc & Rc)]].
      - rewrite Ep, Ec in *. cbn [cpp_ser_registries] in E2. cbn [cpp_ser_properties] in E.
        injection E as <-. injection E2 as <-. reflexivity.
      - assert (w2 <> []); [|destruct (g_props G), (g_classes G), w2; try congruence; destruct S as (? & ? & [] & _)].
        destruct S as (p & x & Hp & L & Nx). intros ->. destruct Rp as [_ Rp].
        destruct (Rp p Hp) as [[_ L']|(v & y & Ey & _)]; [congruence|]. rewrite <- (Keep p Hp) in Ey. discriminate.
      - assert (w2 <> []); [|destruct (g_props G), (g_classes G), w2; try congruence; destruct Hc].
        intros ->. destruct (Kc c Hc) as [[R0 _]|(ws & Lw & _)]; [congruence|discriminate]. }
    exists w2. split; [unfold cpp_ser_graph; rewrite E; cbn [csbind]; rewrite E2; cbn [csbind]; rewrite Ev; reflexivity|].
    split; [constructor; [exact N2|intros k y Hy; apply K2 in Hy as [Hy|[Hy _]]; eauto]|].
    split; [constructor; intros k y Hy; apply K2 in Hy as [Hy|[_ Hy]]; eauto|].
    assert (L : forall n id, known n id -> listed G cpp_cls_key w2 n id).
    { intros n id (a & c & Ec & La). destruct (find_class_In _ _ _ Ec) as [Hc _].
      destruct (Kc c Hc) as [[R0 _]|(ws & Lw & Kws & A)]; [rewrite R0 in La; discriminate|].
      exists c, ws. split; [exact Ec|]. split; [exact Lw|]. rewrite Kws. eapply lookup_Some_key. exact La. }
    split.
    - exists w2. split; [reflexivity|]. split.
      + intros c Hc. destruct (Kc c Hc) as [[_ L0]|(ws & Lw & Kws & A)]; [left; exact L0|].
        right. exists ws. split; [exact Lw|]. intros id y Hy.
        destruct (A id y Hy) as (a & i & o & Ha & -> & Hi & Hcl & Hid & Hm & _ & _ & Co & _).
        split; [exact Hm|]. exists o. split; [reflexivity|]. eapply fields_conform_mono; [exact L|exact Co].
      + intros p Hp. unfold absent. rewrite Keep by exact Hp.
        exact (fields_conform_mono X G known (listed G cpp_cls_key w2) _ w L C p Hp).
    - split.
      + destruct Rp as [Rp1 Rp2]. split; [exact Rp1|]. intros p Hp. rewrite Keep by exact Hp. apply Rp2. exact Hp.
      + intros c Hc. split; [apply (proj1 (proj2 Hsat c Hc))|].
        destruct (Kc c Hc) as [[R0 L0]|(ws & Lw & Kws & A)]; [left; auto|].
        right. exists ws. split; [exact Lw|]. split; [intros id; rewrite Kws; reflexivity|].
        intros id y a Hy Ha. destruct (A id y Hy) as (a' & i & o & Ha' & -> & Hi & Hcl & Hid & _ & _ & _ & _ & Rpo).
        assert (a = a').
        { pose proof (proj1 (proj2 Hsat c Hc)) as Nr.
          apply In_lookup in Ha; [|exact Nr]. apply In_lookup in Ha'; [|exact Nr]. congruence. }
        subst a'. exists o, i. auto.
  Qed.
End Ser.
