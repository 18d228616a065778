(** Runs of the generated Python parser which add no errors: they are exactly the
    runs on conforming values (C03, C04), and what they return. *)
From Verif Require Import Base M_Naming M_Errors M_Dec M_Schema M_PyGen S_Conform S_PyGen P_PyBase
  P_PyUnknown.
From Coq Require Import String List Arith NArith ZArith Bool Lia.
Import ListNotations.

(** ** Induction over Python values *)
Section pyval_ind.
  Variable P : pyval -> Prop.
  Hypothesis H0 : forall x, match x with PVList _ | PVDict _ | PVEmbed _ _ => False | _ => True end -> P x.
  Hypothesis H1 : forall l, Forall P l -> P (PVList l).
  Hypothesis H2 : forall l, Forall (fun kv => P (snd kv)) l -> P (PVDict l).
  Hypothesis H3 : forall n l, Forall (fun kv => P (snd kv)) l -> P (PVEmbed n l).
  Fixpoint pyval_ind' (x : pyval) : P x :=
    match x with
    | PVList l => H1 l ((fix go l : Forall P l :=
        match l with [] => Forall_nil _ | x :: l' => Forall_cons x (pyval_ind' x) (go l') end) l)
    | PVDict l => H2 l ((fix go l : Forall (fun kv => P (snd kv)) l :=
        match l with
        | [] => Forall_nil _
        | kv :: l' => Forall_cons kv (pyval_ind' (snd kv)) (go l')
        end) l)
    | PVEmbed n l => H3 n l ((fix go l : Forall (fun kv => P (snd kv)) l :=
        match l with
        | [] => Forall_nil _
        | kv :: l' => Forall_cons kv (pyval_ind' (snd kv)) (go l')
        end) l)
    | PVNone => H0 PVNone I
    | PVBool b => H0 (PVBool b) I
    | PVInt z => H0 (PVInt z) I
    | PVFloat f => H0 (PVFloat f) I
    | PVStr s => H0 (PVStr s) I
    | PVPath s => H0 (PVPath s) I
    | PVDate d => H0 (PVDate d) I
    | PVTime d => H0 (PVTime d) I
    | PVDatetime d => H0 (PVDatetime d) I
    | PVZone s => H0 (PVZone s) I
    | PVDuration d => H0 (PVDuration d) I
    | PVRef a => H0 (PVRef a) I
    end.
End pyval_ind.

Lemma sat_mono G (so so' : ty -> pyval -> Prop) (P Q : str -> addr -> Prop) :
  (forall t x, so t x -> so' t x) -> (forall n a, P n a -> Q n a) ->
  forall x t, sat G so P t x -> sat G so' Q t x.
Proof.
  intros Hs HPQ. induction x as [x Hx|l IH|l IH|n l IH] using pyval_ind'; intros t H.
  - destruct x; try destruct Hx; inversion H; subst; first [apply sat_ref; solve [auto]|apply sat_scalar; solve [auto]].
  - inversion H as [? ? Ht HS HN| ? ? ? ? Hz Hl| | |]; subst; [apply sat_scalar; auto|].
    apply sat_array; [exact Hz|]. intros x Hx. rewrite Forall_forall in IH. auto.
  - inversion H as [? ? Ht HS HN| | ? ? Hn Hl| |]; subst; [apply sat_scalar; auto|].
    apply sat_map; [exact Hn|]. intros k x Hx. rewrite Forall_forall in IH.
    apply (IH (k, x)); eauto.
  - inversion H as [? ? Ht HS HN| | | |? e ? He Hk Hp]; subst; [apply sat_scalar; auto|].
    eapply sat_embed; [exact He|exact Hk|]. intros p Hi. destruct (Hp p Hi) as (x & Hx & HS).
    exists x. split; [exact Hx|]. destruct HS as [HS|HS]; [left; exact HS|right].
    rewrite Forall_forall in IH. apply lookup_In in Hx. apply (IH (_, x) Hx). exact HS.
Qed.

Lemma conforms_mono G (leaf leaf' : ty -> jval -> Prop) (P Q : str -> str -> Prop) :
  (forall t v, leaf t v -> leaf' t v) -> (forall n i, P n i -> Q n i) ->
  forall v t, conforms G leaf P t v -> conforms G leaf' Q t v.
Proof.
  intros HL HPQ. induction v as [| | | | |l IH|l IH] using jval_ind'; intros t H.
  1-5: inversion H; subst; first [apply conf_ref; solve [auto]|apply conf_scalar; solve [auto]].
  - inversion H as [? ? Ht HS|? ? ? ? Hz Hl| | |]; subst; [apply conf_scalar; auto|].
    apply conf_array; [exact Hz|]. intros v Hv. rewrite Forall_forall in IH. auto.
  - inversion H as [? ? Ht HS| |? ? Hl| |? e ? He Hp]; subst; [apply conf_scalar; auto| |].
    + apply conf_map. intros k v Hv. rewrite Forall_forall in IH. apply (IH (k, v) Hv). eauto.
    + eapply conf_embed; [exact He|]. intros p Hi. destruct (Hp p Hi) as [HS|(v & E & Hn & HS)]; [auto|].
      right. exists v. repeat split; auto. rewrite Forall_forall in IH. apply lookup_In in E.
      apply (IH _ E). exact HS.
Qed.

(** ** Clean runs *)

Definition room (es : errs) : Prop := (Z.of_nat (length (py_values es)) < py_cap es)%Z.

Lemma room_not_full es : room es -> py_full es = false.
Proof. unfold room, py_full. intros H. apply Z.eqb_neq. lia. Qed.

Lemma grown_antisym a b : grown a b -> grown b a -> a = b.
Proof.
  intros [H1 [l H2]] [_ [l' H3]]. destruct a as [ca va], b as [cb vb]. simpl in *. subst.
  assert (length va = length ((va ++ l) ++ l')) by congruence.
  rewrite !app_length in H. assert (length l = 0) by lia. destruct l; [|discriminate].
  rewrite app_nil_r. reflexivity.
Qed.

Lemma add_not_clean ref m es : room es -> add ref m es <> es.
Proof.
  unfold room, add, py_add. intros H E.
  destruct (Z.ltb_spec (Z.of_nat (length (py_values es))) (py_cap es)); [|lia].
  apply (f_equal (fun e => length (py_values e))) in E. simpl in E.
  rewrite app_length in E. simpl in E. lia.
Qed.

(** [m] adds no errors and returns [a]. *)
Definition yields {A} (m : M A) (a : A) : Prop := forall es, room es -> m es = Ok (a, es).
(** If [m] adds no errors then [P]. *)
Definition clean {A} (m : M A) (P : Prop) : Prop :=
  forall es a, room es -> m es = Ok (a, es) -> P.

Lemma yields_ret {A} (a : A) : yields (ret a) a.
Proof. intros es _. reflexivity. Qed.

Lemma yields_bind {A B} (m : M A) (f : A -> M B) a b :
  yields m a -> yields (f a) b -> yields (mbind m f) b.
Proof. intros H1 H2 es R. unfold mbind. rewrite H1 by exact R. apply H2. exact R. Qed.

Lemma yields_full {A} (a b : A) (m : M A) :
  yields m b -> yields (fun es => if py_full es then Ok (a, es) else m es) b.
Proof. intros H es R. rewrite (room_not_full es R). apply H. exact R. Qed.

Lemma bind_clean {A B} (m : M A) (f : A -> M B) es b :
  keeps m -> (forall a, keeps (f a)) -> mbind m f es = Ok (b, es) ->
  exists a, m es = Ok (a, es) /\ f a es = Ok (b, es).
Proof.
  intros Hm Hf H. unfold mbind in H. destruct (m es) as [[a es1]|] eqn:E; [|discriminate].
  assert (es = es1).
  { apply grown_antisym; [eapply Hm; exact E|eapply Hf; exact H]. }
  subst es1. exists a. auto.
Qed.

Lemma report_clean {A} ref m (a : A) P : clean (report ref m a) P.
Proof. intros es b R H. injection H as _ H. exfalso. revert H. apply add_not_clean. exact R. Qed.

Lemma report_fmt_clean {A} r ref m (a : A) P : clean (report_fmt r ref m a) P.
Proof. destruct r; [intros es b _ H; discriminate|apply report_clean]. Qed.

Lemma fail_clean {A} e P : clean (@fail A e) P.
Proof. intros es b _ H. discriminate. Qed.

(** ** Bounds *)

Definition in_bounds (b : bounds) (n : num) : Prop :=
  match n with NInt z => in_range b z | NFloat f => float_in_range b f end.

Lemma above_spec b n m : above b n m = true <->
  match n with
  | NInt z => if b_exmin b then (m < z)%Z else (m <= z)%Z
  | NFloat f => cmp_float_Z f m = Some Gt \/ (b_exmin b = false /\ cmp_float_Z f m = Some Eq)
  end.
Proof.
  unfold above. destruct n as [z|f]; simpl.
  - destruct (Z.compare_spec z m), (b_exmin b); simpl; split; intros; try congruence; lia.
  - destruct (cmp_float_Z f m) as [[]|], (b_exmin b); simpl; split; intros; try congruence;
      auto; intuition congruence.
Qed.

Lemma below_spec b n m : below b n m = true <->
  match n with
  | NInt z => if b_exmax b then (z < m)%Z else (z <= m)%Z
  | NFloat f => cmp_float_Z f m = Some Lt \/ (b_exmax b = false /\ cmp_float_Z f m = Some Eq)
  end.
Proof.
  unfold below. destruct n as [z|f]; simpl.
  - destruct (Z.compare_spec z m), (b_exmax b); simpl; split; intros; try congruence; lia.
  - destruct (cmp_float_Z f m) as [[]|], (b_exmax b); simpl; split; intros; try congruence;
      auto; intuition congruence.
Qed.

Lemma in_bounds_spec b n : in_bounds b n <->
  (forall m, b_min b = Some m -> above b n m = true) /\
  (forall m, b_max b = Some m -> below b n m = true).
Proof.
  unfold in_bounds, in_range, float_in_range. destruct n as [z|f].
  - split; intros [H1 H2]; split; intros m Hm.
    + apply above_spec. exact (H1 m Hm).
    + apply below_spec. exact (H2 m Hm).
    + apply (above_spec b (NInt z) m). exact (H1 m Hm).
    + apply (below_spec b (NInt z) m). exact (H2 m Hm).
  - split; intros [H1 H2]; split; intros m Hm.
    + apply above_spec. exact (H1 m Hm).
    + apply below_spec. exact (H2 m Hm).
    + apply (above_spec b (NFloat f) m). exact (H1 m Hm).
    + apply (below_spec b (NFloat f) m). exact (H2 m Hm).
Qed.

Lemma check_bounds_yields b v n assign ref x :
  in_bounds b n -> yields assign x -> yields (check_bounds b v n assign ref) x.
Proof.
  intros H Ha. apply in_bounds_spec in H as [H1 H2]. unfold check_bounds.
  destruct (b_min b) as [m|], (b_max b) as [m'|];
    rewrite ?(H1 _ eq_refl), ?(H2 _ eq_refl); auto.
Qed.

Lemma check_bounds_clean b v n assign ref es r :
  keeps assign -> room es -> check_bounds b v n assign ref es = Ok (r, es) ->
  in_bounds b n /\ assign es = Ok (r, es).
Proof.
  intros Hk R H. rewrite in_bounds_spec. unfold check_bounds in H.
  destruct (b_min b) as [m|], (b_max b) as [m'|].
  - apply bind_clean in H as ([] & E1 & E2).
    + destruct (above b n m) eqn:A; [|exfalso; revert R E1; apply report_clean].
      destruct (below b n m') eqn:B; [|exfalso; revert R E2; apply report_clean].
      split; [|exact E2]. split; intros k [= <-]; assumption.
    + destruct (above b n m); auto with keeps.
    + intros _. destruct (below b n m'); auto with keeps.
  - destruct (above b n m) eqn:A; [|exfalso; revert R H; apply report_clean].
    split; [|exact H]. split; intros k Hk'; congruence.
  - destruct (below b n m') eqn:A; [|exfalso; revert R H; apply report_clean].
    split; [|exact H]. split; intros k Hk'; congruence.
  - split; [|exact H]. split; intros; congruence.
Qed.

Section Py.
  Variable X : ext.
  Variable S : py_settings.
  Variable G : graph.
  Hypothesis Hdistinct : attrs_distinct G.

  Section Regs.
    Variable R : registries.

    Definition known (n id : str) : Prop :=
      exists c reg a, find_class G n = Some c /\ lookup (attr (c_plural c)) R = Some reg /\
                      lookup id reg = Some a.
    Definition in_regs (n : str) (a : addr) : Prop :=
      exists c reg id, find_class G n = Some c /\ lookup (attr (c_plural c)) R = Some reg /\
                       lookup id reg = Some a.

    (** *** Only conforming values are parsed without errors *)

    Definition parser_clean (v : jval) (p : parser) : Prop :=
      forall t ref, clean (p t ref) (conforms G (py_leaf X S) known t v).

    Lemma check_pattern_clean p s x ref es r : room es ->
      check_pattern X p s x ref es = Ok (r, es) -> matches X p s.
    Proof.
      unfold check_pattern, matches. intros Ro H q Hq. subst p.
      destruct (x_re_match X q s); [reflexivity|]. exfalso. revert Ro H. apply report_fmt_clean.
    Qed.

    Lemma parse_items_clean t ref l ps : 
      Forall2 (fun v p => parser_clean v p /\ parser_keeps p) l ps ->
      forall i target, clean (parse_items ps t ref i target)
        (forall v, In v l -> conforms G (py_leaf X S) known t v).
    Proof.
      induction 1 as [|v p l ps [Hc Hk] HF IH]; intros i target es a Ro H.
      - intros v [].
      - cbn [parse_items] in H.
        assert (Hks : forall i target, keeps (parse_items ps t ref i target)).
        { apply keeps_parse_items. clear -HF. induction HF as [|? ? ? ? []]; constructor; auto. }
        apply bind_clean in H as (item & E1 & E2); auto with keeps.
        rewrite (room_not_full es Ro) in E2.
        intros w [<-|Hw]; [eapply Hc; eassumption|].
        eapply IH; eassumption.
    Qed.

    Lemma parse_entries_clean t ref l ps : 
      Forall2 (fun (kv : str * jval) kp => parser_clean (snd kv) (snd kp) /\ parser_keeps (snd kp)) l ps ->
      forall target, clean (parse_entries X ps t ref target)
        (forall k v, In (k, v) l -> conforms G (py_leaf X S) known t v).
    Proof.
      induction 1 as [|[k v] [k' p] l ps [Hc Hk] HF IH]; intros target es a Ro H.
      - intros k v [].
      - cbn [parse_entries] in H. simpl in Hc, Hk.
        assert (Hks : forall target, keeps (parse_entries X ps t ref target)).
        { apply keeps_parse_entries. clear -HF. induction HF as [|? ? ? ? []]; constructor; auto. }
        apply bind_clean in H as (item & E1 & E2); auto with keeps.
        rewrite (room_not_full es Ro) in E2.
        intros k0 v0 [Hi|Hi]; [injection Hi as <- <-; eapply Hc; eassumption|].
        eapply IH; eassumption.
    Qed.

    Lemma parse_properties_clean ps o l ref :
      (forall k, lookup k o = match lookup k l with
                              | Some v => Some (v, parse_value X S G R v) | None => None end) ->
      (forall v, In v (map snd l) -> parser_clean v (parse_value X S G R v)) ->
      members_keep o ->
      forall attrs, clean (parse_properties ps o ref attrs)
        (fields_conform G (py_leaf X S) known ps l).
    Proof.
      intros Ho Hc Hk. induction ps as [|p ps IH]; intros attrs es a Ro H.
      - intros p [].
      - cbn [parse_properties] in H.
        apply bind_clean in H as (attrs' & E1 & E2).
        + rewrite (room_not_full es Ro) in E2.
          intros q [<-|Hq]; [|revert q Hq; eapply IH; eassumption].
          clear E2. unfold parse_property in E1. rewrite Ho in E1.
          destruct (lookup (p_json p) l) as [v|] eqn:E.
          * assert (Hv : v = JNull \/ v <> JNull)
              by (destruct v; (left; reflexivity) || (right; discriminate)).
            destruct Hv as [->|Hv].
            { left. destruct (p_optional p); [|exfalso; revert Ro E1; apply report_clean].
              split; [reflexivity|]. right. exact E. }
            right. exists v. split; [reflexivity|]. split; [exact Hv|].
            assert (E1' : mbind (parse_value X S G R v (p_type p) (slash ref (p_json p)))
                (fun r => ret (match r with Some x => upsert (attr (p_name p)) x attrs
                                          | None => attrs end)) es = Ok (attrs', es)).
            { destruct v; try exact E1. congruence. }
            apply bind_clean in E1' as (r & E1' & _); auto with keeps;
              [|apply keeps_parse_value].
            eapply Hc; [|exact Ro|exact E1'].
            apply lookup_In in E. apply (in_map snd) in E. exact E.
          * left. destruct (p_optional p); [|exfalso; revert Ro E1; apply report_clean].
            split; [reflexivity|]. left. exact E.
        + apply keeps_parse_property. exact Hk.
        + intros a'. apply keeps_full. apply keeps_parse_properties. exact Hk.
    Qed.

    Lemma int_value_b2z x : int_value (JBool x) (b2z x).
    Proof. destruct x; unfold int_value; auto. Qed.

    Lemma parse_value_clean v : parser_clean v (parse_value X S G R v).
    Proof.
      induction v as [| | | | |l IH|l IH] using jval_ind'; intros t ref es r Ro H; destruct t;
        cbn -[float_of_Z] in H; try (exfalso; revert Ro H; apply report_clean);
        try (unfold parse_dt, parse_reference in H);
        try (destruct (find_embed G name) as [e|] eqn:He; [|discriminate];
             apply bind_clean in H as (attrs & E1 & E2);
             [exfalso; revert Ro E1; apply report_clean|apply keeps_report|intros; apply keeps_ret]).
      - constructor; [reflexivity|]. exists b. reflexivity.
      - apply check_bounds_clean in H as [H _]; auto with keeps.
        constructor; [reflexivity|]. exists (b2z b). split; [apply int_value_b2z|exact H].
      - apply check_bounds_clean in H as [H E]; [|apply keeps_to_float|exact Ro].
        constructor; [reflexivity|]. right. exists (b2z b).
        split; [apply int_value_b2z|]. split; [exact H|].
        unfold to_float in E. destruct (float_of_Z (b2z b)); [discriminate|discriminate].
      - apply check_bounds_clean in H as [H _]; auto with keeps.
        constructor; [reflexivity|]. exists z. split; [left; reflexivity|exact H].
      - apply check_bounds_clean in H as [H E]; [|apply keeps_to_float|exact Ro].
        constructor; [reflexivity|]. right. exists z. split; [left; reflexivity|].
        split; [exact H|]. unfold to_float in E. destruct (float_of_Z z); discriminate.
      - apply check_bounds_clean in H as [H _]; auto with keeps.
        constructor; [reflexivity|]. left. exists f. split; [reflexivity|exact H].
      - apply check_pattern_clean in H; [|exact Ro].
        constructor; [reflexivity|]. exists s. auto.
      - apply check_pattern_clean in H; [|exact Ro].
        constructor; [reflexivity|]. exists s. auto.
      - constructor; [reflexivity|]. exists s. split; [reflexivity|].
        destruct (x_strptime X format s); [discriminate|].
        exfalso; revert Ro H; apply report_fmt_clean.
      - constructor; [reflexivity|]. exists s. split; [reflexivity|].
        destruct (x_strptime X format s); [discriminate|].
        exfalso; revert Ro H; apply report_fmt_clean.
      - constructor; [reflexivity|]. exists s. split; [reflexivity|].
        destruct (x_strptime X format s); [discriminate|].
        exfalso; revert Ro H; apply report_fmt_clean.
      - constructor; [reflexivity|]. exists s. split; [reflexivity|].
        intros Hp. rewrite Hp in H.
        destruct (x_tz X s); [discriminate|]. exfalso; revert Ro H; apply report_clean.
      - constructor; [reflexivity|]. exists s. split; [reflexivity|].
        destruct (x_dur_from X s); [discriminate|]. exfalso; revert Ro H; apply report_clean.
      - destruct (find_class G name) as [c|] eqn:E1; [|discriminate].
        destruct (lookup (attr (c_plural c)) R) as [reg|] eqn:E2; [|discriminate].
        destruct (lookup s reg) as [a|] eqn:E3; [|exfalso; revert Ro H; apply report_clean].
        apply conf_ref. exists c, reg, a. auto.
      - (* array *)
        unfold parse_array in H. rewrite map_length in H.
        destruct (match minimum_size with Some m => _ | None => _ end) eqn:Emn;
          [exfalso; revert Ro H; apply report_clean|].
        destruct (match maximum_size with Some m => _ | None => _ end) eqn:Emx;
          [exfalso; revert Ro H; apply report_clean|].
        assert (HF : Forall2 (fun v p => parser_clean v p /\ parser_keeps p) l
                      (map (parse_value X S G R) l)).
        { clear -IH. induction IH; simpl; constructor; auto. split; [assumption|apply keeps_parse_value]. }
        apply bind_clean in H as (target & E1 & _); auto with keeps.
        + apply conf_array.
          * split; intros m Hm; subst; [apply Z.ltb_ge in Emn|apply Z.ltb_ge in Emx]; assumption.
          * eapply parse_items_clean; eassumption.
        + apply keeps_parse_items. clear -HF. induction HF as [|? ? ? ? []]; constructor; auto.
      - (* map *)
        assert (HF : Forall2 (fun (kv : str * jval) kp =>
                        parser_clean (snd kv) (snd kp) /\ parser_keeps (snd kp)) l
                      (map (fun kv => (fst kv, parse_value X S G R (snd kv))) l)).
        { clear -IH. induction IH; simpl; constructor; auto. split; [assumption|apply keeps_parse_value]. }
        apply bind_clean in H as (target & E1 & _); auto with keeps.
        + apply conf_map. eapply parse_entries_clean; eassumption.
        + apply keeps_parse_entries. clear -HF. induction HF as [|? ? ? ? []]; constructor; auto.
      - (* embed *)
        destruct (find_embed G name) as [e|] eqn:He; [|discriminate].
        assert (Hm : members_keep (members_of X S G R (JObj l))) by apply members_of_keep.
        change (map (fun kv => (fst kv, (snd kv, parse_value X S G R (snd kv)))) l)
          with (members_of X S G R (JObj l)) in H.
        apply bind_clean in H as (attrs & E1 & _); auto with keeps;
          [|apply (keeps_composite_from _ (JObj l)); exact Hm].
        apply bind_clean in E1 as ([early attrs'] & E1 & _);
          [|apply keeps_parse_properties; exact Hm|intros []; apply keeps_ret].
        apply (conf_embed _ _ _ _ e); [exact He|].
        eapply parse_properties_clean; [| |exact Hm|exact Ro|exact E1].
        + intros k. apply lookup_members.
        + intros v Hv. apply in_map_iff in Hv as [[k w] [<- Hi]].
          rewrite Forall_forall in IH. apply (IH _ Hi).
    Qed.

    (** *** Conforming values are parsed, to values satisfying the type *)

    Variable I : Z -> Prop.
    Notation sat_ := (sat G (py_scalar X S I) in_regs).

    Definition value_yields (v : jval) (t : ty) (x : pyval) : Prop :=
      forall ref, yields (parse_value X S G R v t ref) (Some x).

    (** The value of a property. *)
    Definition field_yields (l : list (str * jval)) (p : prop) (kv : str * pyval) : Prop :=
      fst kv = attr (p_name p) /\
      ((snd kv = PVNone /\ p_optional p = true /\ absent (p_json p) l) \/
       (exists v, lookup (p_json p) l = Some v /\ v <> JNull /\ value_yields v (p_type p) (snd kv))).

    Lemma upsert_middle {A} k (v v0 : A) l1 l2 :
      ~ In k (keys l1) -> upsert k v (l1 ++ (k, v0) :: l2) = l1 ++ (k, v) :: l2.
    Proof.
      induction l1 as [|[k1 v1] l1 IH]; simpl; intros H.
      - rewrite str_eqb_refl. reflexivity.
      - destruct (str_eqb k k1) eqn:E; [apply str_eqb_eq in E; subst; tauto|].
        rewrite IH; tauto.
    Qed.

    Lemma parse_properties_yields l ref ps attrs :
      Forall2 (field_yields l) ps attrs ->
      forall done, NoDup (keys done ++ map (fun p => attr (p_name p)) ps) ->
      yields (parse_properties ps (members_of X S G R (JObj l)) ref (done ++ placeholder ps))
             (false, done ++ attrs).
    Proof.
      induction 1 as [|p [k x] ps attrs [Hk Hp] HF IH]; intros done Hnd.
      - simpl. apply yields_ret.
      - cbn [parse_properties]. simpl in Hk. subst k.
        set (k := attr (p_name p)) in *.
        change (placeholder (p :: ps)) with ((k, PVNone) :: placeholder ps).
        apply yields_bind with (done ++ (k, x) :: placeholder ps).
        + intros es Ro. simpl in Hp.
          destruct Hp as [(-> & Ho & Ha)|(v & E & Hv & Hy)].
          * unfold parse_property. rewrite lookup_members, Ho.
            destruct Ha as [E|E]; rewrite E; reflexivity.
          * rewrite (parse_property_nonnull p _ ref _ v (parse_value X S G R v));
              [|rewrite lookup_members, E; reflexivity|exact Hv].
            unfold mbind. rewrite Hy by exact Ro. unfold ret. fold k.
            rewrite upsert_middle; [reflexivity|].
            intros HI. apply NoDup_remove_2 in Hnd. apply Hnd. apply in_or_app. left. exact HI.
        + apply yields_full.
          replace (done ++ (k, x) :: placeholder ps) with ((done ++ [(k, x)]) ++ placeholder ps)
            by (rewrite <- app_assoc; reflexivity).
          replace (done ++ (k, x) :: attrs) with ((done ++ [(k, x)]) ++ attrs)
            by (rewrite <- app_assoc; reflexivity).
          apply IH. unfold keys. rewrite map_app. simpl. rewrite <- app_assoc. exact Hnd.
    Qed.

    Lemma composite_from_yields l ref ps attrs :
      In ps (composites G) -> Forall2 (field_yields l) ps attrs ->
      yields (composite_from ps (JObj l) (members_of X S G R (JObj l)) ref (placeholder ps)) attrs.
    Proof.
      intros Hi HF. cbn [composite_from].
      apply yields_bind with (false, attrs); [|apply yields_ret].
      apply (parse_properties_yields l ref ps attrs HF []). apply (Hdistinct ps Hi).
    Qed.

    Lemma fields_attrs_sat so ro l ps attrs :
      NoDup (map (fun p => attr (p_name p)) ps) ->
      Forall2 (field_yields l) ps attrs ->
      Forall2 (fun p kv => (snd kv = PVNone /\ p_optional p = true) \/ sat G so ro (p_type p) (snd kv))
              ps attrs ->
      attrs_sat G so ro ps attrs.
    Proof.
      intros Hnd HF HS. split.
      - clear HS Hnd. induction HF as [|p [k x] ps attrs [Hk _] _ IH]; simpl in *; [reflexivity|].
        unfold keys in *. simpl. rewrite IH, Hk. reflexivity.
      - revert Hnd HF. induction HS as [|p [k x] ps attrs Hp HS IH]; intros Hnd HF; [intros p []|].
        inversion HF as [|? ? ? ? [Hk _] HF']; subst. simpl in Hk. subst k.
        inversion Hnd as [|? ? Hni Hnd']; subst.
        intros q [<-|Hq].
        + exists x. simpl. rewrite str_eqb_refl. auto.
        + destruct (IH Hnd' HF' q Hq) as (y & E & Hy). exists y. split; [|exact Hy].
          simpl. destruct (str_eqb (attr (p_name q)) (attr (p_name p))) eqn:Eq; [|exact E].
          apply str_eqb_eq in Eq. exfalso. apply Hni. rewrite <- Eq.
          apply in_map with (f := fun p => attr (p_name p)). exact Hq.
    Qed.

    Lemma embed_composite n e : find_embed G n = Some e -> In (e_props e) (composites G).
    Proof.
      intros H. apply find_some in H as [H _]. unfold composites.
      apply in_or_app. right. apply in_or_app. left. apply in_map. exact H.
    Qed.

    Notation rep_ := (rep X S G (designates G R)).

    (** The Python value of a conforming JSON value. *)
    Definition good (t : ty) (v : jval) : Prop :=
      exists x, sat_ t x /\ value_yields v t x /\ rep_ t v x.

    Lemma fields_good ps l :
      In ps (composites G) ->
      (forall p v, In p ps -> lookup (p_json p) l = Some v -> v <> JNull ->
                   conforms G (py_leaf X S) known (p_type p) v -> good (p_type p) v) ->
      fields_conform G (py_leaf X S) known ps l ->
      exists attrs, Forall2 (field_yields l) ps attrs /\
                    attrs_sat G (py_scalar X S I) in_regs ps attrs /\
                    fields_rep X S G (designates G R) ps l attrs.
    Proof.
      intros Hi Hg Hf.
      assert (H : exists attrs, Forall2 (field_yields l) ps attrs /\
        fields_rep X S G (designates G R) ps l attrs /\
        Forall2 (fun p kv => (snd kv = PVNone /\ p_optional p = true) \/
                             sat_ (p_type p) (snd kv)) ps attrs).
      { clear Hi. induction ps as [|p ps IH].
        - exists []. split; [|split]; constructor.
        - destruct IH as (attrs & H1 & H3 & H2).
          + intros q v Hq. apply Hg. right. exact Hq.
          + intros q Hq. apply Hf. right. exact Hq.
          + destruct (Hf p (or_introl eq_refl)) as [[Ho Ha]|(v & E & Hv & Hc)].
            * exists ((attr (p_name p), PVNone) :: attrs).
              split; [|split]; constructor; auto. split; [reflexivity|]. left. auto.
            * destruct (Hg p v (or_introl eq_refl) E Hv Hc) as (x & Hs & Hy & Hr).
              exists ((attr (p_name p), x) :: attrs).
              split; [|split]; constructor; auto; split; try reflexivity; right; eauto. }
      destruct H as (attrs & H1 & H3 & H2). exists attrs. split; [exact H1|]. split; [|exact H3].
      eapply fields_attrs_sat; eauto.
    Qed.

    Local Ltac rep_tac :=
      match goal with
      | |- scalar_rep _ _ _ _ _ => cbn -[float_of_Z]; try (unfold path_value);
          first [solve [eauto 8] | left; solve [eauto 8] | right; solve [eauto 8]
                | solve [right; eexists; eexists; split; [|split; [eassumption|reflexivity]];
                         unfold int_value; auto]
                | solve [eexists; split; [reflexivity|];
                         match goal with H : pytz S = _ |- _ => rewrite H end; eauto]]
      end.

    Lemma conforms_good v : json_wf v -> all_ints I v ->
      forall t, conforms G (py_leaf X S) known t v -> good t v.
    Proof.
      assert (Hscalar : forall t x v, scalar t = true -> py_scalar X S I t x -> x <> PVNone ->
                value_yields v t x -> scalar_rep X S t v x -> good t v).
      { intros t x v0 H1 H2 H3 H4 H5. exists x. split; [constructor; assumption|].
        split; [exact H4|]. constructor; assumption. }
      induction v as [| | | | |l IH|l IH] using jval_ind'; intros Hwf Hai t H.
      1-5: inversion H as [t0 v0 Hs Hl| | |n id Hk|]; subst;
        try (destruct t; simpl in Hs; try discriminate Hs; cbn -[float_of_Z] in Hl;
             repeat match goal with
                    | H : exists _, _ |- _ => destruct H
                    | H : _ /\ _ |- _ => destruct H
                    | H : _ \/ _ |- _ => destruct H
                    | H : int_value _ _ |- _ => destruct H as [H|[[H ?]|[H ?]]]
                    end; try discriminate).
      - injection H0 as <-. apply (Hscalar TBool (PVBool b)); try reflexivity; try discriminate; try rep_tac.
        + exists b. reflexivity.
        + intros ref. apply yields_ret.
      - injection H0 as ->. subst. apply (Hscalar (TInt b0) (PVBool true)); try reflexivity; try discriminate; try rep_tac.
        + exists 1%Z. auto.
        + intros ref. apply check_bounds_yields; [exact H1|apply yields_ret].
      - injection H0 as ->. subst. apply (Hscalar (TInt b0) (PVBool false)); try reflexivity; try discriminate; try rep_tac.
        + exists 0%Z. auto.
        + intros ref. apply check_bounds_yields; [exact H1|apply yields_ret].
      - injection H0 as ->. subst. destruct (float_of_Z 1) as [f|] eqn:Ef; [|congruence].
        apply (Hscalar (TFloat b0) (PVFloat f)); try reflexivity; try discriminate; try rep_tac.
        + exists f. split; [reflexivity|]. right. eexists; split; [|eauto]. solve [inversion Hai; auto].
        + intros ref. apply check_bounds_yields; [exact H1|].
          unfold to_float, b2z. rewrite Ef. apply yields_ret.
      - injection H0 as ->. subst. destruct (float_of_Z 0) as [f|] eqn:Ef; [|congruence].
        apply (Hscalar (TFloat b0) (PVFloat f)); try reflexivity; try discriminate; try rep_tac.
        + exists f. split; [reflexivity|]. right. eexists; split; [|eauto]. solve [inversion Hai; auto].
        + intros ref. apply check_bounds_yields; [exact H1|].
          unfold to_float, b2z. rewrite Ef. apply yields_ret.
      - injection H0 as <-. apply (Hscalar (TInt b) (PVInt z)); try reflexivity; try discriminate; try rep_tac.
        + exists z. auto.
        + intros ref. apply check_bounds_yields; [exact H1|apply yields_ret].
      - injection H0 as <-. destruct (float_of_Z z) as [f|] eqn:Ef; [|congruence].
        apply (Hscalar (TFloat b) (PVFloat f)); try reflexivity; try discriminate; try rep_tac.
        + exists f. split; [reflexivity|]. right. eexists; split; [|eauto]. solve [inversion Hai; auto].
        + intros ref. apply check_bounds_yields; [exact H1|].
          unfold to_float. rewrite Ef. apply yields_ret.
      - injection H0 as <-. apply (Hscalar (TFloat b) (PVFloat f)); try reflexivity; try discriminate; try rep_tac.
        + exists f. auto.
        + intros ref. apply check_bounds_yields; [exact H1|apply yields_ret].
      - injection H0 as <-. apply (Hscalar (TStr pattern) (PVStr s)); try reflexivity; try discriminate; try rep_tac.
        + exists s. auto.
        + intros ref. cbn [parse_value parse_string]. unfold check_pattern. destruct pattern as [q|];
            [rewrite (H1 q eq_refl)|]; apply yields_ret.
      - injection H0 as <-. apply (Hscalar (TPath pattern) (path_value X S s)); try rep_tac.
        + reflexivity.
        + exists s. split; [exact H1|]. unfold path_value. reflexivity.
        + unfold path_value. destruct (pathlib S); discriminate.
        + intros ref. cbn [parse_value parse_path]. unfold check_pattern. destruct pattern as [q|];
            [rewrite (H1 q eq_refl)|]; apply yields_ret.
      - injection H0 as <-. destruct (x_strptime X format s) as [d|] eqn:Ed; [|congruence].
        apply (Hscalar (TDate format) (PVDate (date_of d))); try reflexivity; try discriminate; try rep_tac.
        + exists s, d. auto.
        + intros ref. cbn [parse_value parse_dt]. rewrite Ed. apply yields_ret.
      - injection H0 as <-. destruct (x_strptime X format s) as [d|] eqn:Ed; [|congruence].
        apply (Hscalar (TTime format) (PVTime (time_of d))); try reflexivity; try discriminate; try rep_tac.
        + exists s, d. auto.
        + intros ref. cbn [parse_value parse_dt]. rewrite Ed. apply yields_ret.
      - injection H0 as <-. destruct (x_strptime X format s) as [d|] eqn:Ed; [|congruence].
        apply (Hscalar (TDatetime format) (PVDatetime d)); try reflexivity; try discriminate; try rep_tac.
        + exists s, d. auto.
        + intros ref. cbn [parse_value parse_dt]. rewrite Ed. apply yields_ret.
      - injection H0 as <-. destruct (pytz S) eqn:Ep.
        + destruct (x_tz X s) as [z|] eqn:Ez; [|exfalso; apply (H1 eq_refl); reflexivity].
          apply (Hscalar TTimeZone (PVZone z)); try reflexivity; try discriminate; try rep_tac.
          * exists s. rewrite Ep. eauto.
          * intros ref. cbn [parse_value parse_time_zone]. rewrite Ep, Ez. apply yields_ret.
        + apply (Hscalar TTimeZone (PVStr s)); try reflexivity; try discriminate; try rep_tac.
          * exists s. rewrite Ep. reflexivity.
          * intros ref. cbn [parse_value parse_time_zone]. rewrite Ep. apply yields_ret.
      - injection H0 as <-. destruct (x_dur_from X s) as [d|] eqn:Ed; [|congruence].
        apply (Hscalar TDuration (PVDuration d)); try reflexivity; try discriminate; try rep_tac.
        + exists s, d. auto.
        + intros ref. cbn [parse_value parse_duration]. rewrite Ed. apply yields_ret.
      - (* reference *)
        destruct Hk as (c & reg & a & E1 & E2 & E3). exists (PVRef a). split; [|split].
        + apply sat_ref. exists c, reg, s. auto.
        + intros ref. cbn [parse_value parse_reference]. rewrite E1, E2, E3. apply yields_ret.
        + apply rep_ref. exists c, reg. auto.
      - (* array *)
        inversion H as [t0 v0 Hs Hl|t0 mn mx l0 Hz Hl| | |]; subst.
        { destruct t; try discriminate Hs; cbn in Hl;
            repeat match goal with
                   | H : exists _, _ |- _ => destruct H
                   | H : _ /\ _ |- _ => destruct H
                   | H : _ \/ _ |- _ => destruct H
                   | H : int_value _ _ |- _ => destruct H as [H|[[H ?]|[H ?]]]
                   end; discriminate. }
        inversion Hwf as [| | | | |? Hw|]; subst. inversion Hai as [| | | | |? Hwi|]; subst.
        assert (HG : exists xs,
                  Forall2 (fun v x => sat_ t0 x /\ value_yields v t0 x /\ rep_ t0 v x) l xs).
        { clear H Hz Hwf Hai. induction IH as [|v l Hv _ IHl]; [exists []; constructor|].
          destruct IHl as [xs Hxs]; [intros w Hi; apply Hl; right; exact Hi|
                                     intros w Hi; apply Hw; right; exact Hi|
                                     intros w Hi; apply Hwi; right; exact Hi|].
          destruct (Hv (Hw v (or_introl eq_refl)) (Hwi v (or_introl eq_refl)) t0) as (x & Hx); [apply Hl; left; reflexivity|].
          exists (x :: xs). constructor; assumption. }
        destruct HG as [xs HG]. exists (PVList xs). split; [|split].
        + apply sat_array; [rewrite <- (Forall2_length _ _ _ HG); exact Hz|].
          clear -HG. induction HG as [|v x l xs [Hs _] _ IH]; intros y; [intros []|].
          intros [<-|Hy]; [exact Hs|apply IH, Hy].
        + intros ref. cbn [parse_value]. unfold parse_array. rewrite map_length.
          destruct Hz as [Hz1 Hz2].
          assert (Emn : match mn with Some m => (Z.of_nat (length l) <? m)%Z | None => false end = false).
          { destruct mn; [apply Z.ltb_ge; apply Hz1; reflexivity|reflexivity]. }
          assert (Emx : match mx with Some m => (m <? Z.of_nat (length l))%Z | None => false end = false).
          { destruct mx; [apply Z.ltb_ge; apply Hz2; reflexivity|reflexivity]. }
          rewrite Emn, Emx.
          apply yields_bind with xs; [|apply yields_ret].
          change xs with ([] ++ xs). generalize (@nil pyval) 0. clear -HG.
          induction HG as [|v x l xs (_ & Hy & _) _ IH]; intros done i; simpl.
          * rewrite app_nil_r. apply yields_ret.
          * eapply yields_bind; [apply Hy|]. apply yields_full.
            replace (done ++ x :: xs) with ((done ++ [x]) ++ xs) by (rewrite <- app_assoc; reflexivity).
            apply IH.
        + apply rep_array. clear -HG. induction HG as [|? ? ? ? (_ & _ & Hr)]; constructor; assumption.
      - (* object: map or embed *)
        inversion H as [t0 v0 Hs Hl| |t0 l0 Hl| |n e l0 He Hp]; subst.
        { destruct t; try discriminate Hs; cbn in Hl;
            repeat match goal with
                   | H : exists _, _ |- _ => destruct H
                   | H : _ /\ _ |- _ => destruct H
                   | H : _ \/ _ |- _ => destruct H
                   | H : int_value _ _ |- _ => destruct H as [H|[[H ?]|[H ?]]]
                   end; discriminate. }
        + inversion Hwf as [| | | | | |? Hnd Hw]; subst. inversion Hai as [| | | | | |? Hwi]; subst.
          assert (HG : exists xs, Forall2 (fun kv kx => fst kv = fst kx /\ sat_ t0 (snd kx) /\
                         value_yields (snd kv) t0 (snd kx) /\ rep_ t0 (snd kv) (snd kx)) l xs).
          { clear H Hwf Hnd Hai. induction IH as [|[k v] l Hv _ IHl]; [exists []; constructor|].
            destruct IHl as [xs Hxs]; [intros k' w Hi; apply (Hl k'); right; exact Hi|
                                       intros k' w Hi; apply (Hw k'); right; exact Hi|
                                       intros k' w Hi; apply (Hwi k'); right; exact Hi|].
            destruct (Hv (Hw k v (or_introl eq_refl)) (Hwi k v (or_introl eq_refl)) t0) as (x & Hx);
              [apply (Hl k); left; reflexivity|].
            exists ((k, x) :: xs). constructor; [split; [reflexivity|exact Hx]|exact Hxs]. }
          destruct HG as [xs HG].
          assert (Ek : keys xs = keys l).
          { clear -HG. induction HG as [|[k v] [k' x] l xs [E _] _ IH]; [reflexivity|].
            unfold keys in *. simpl in *. congruence. }
          exists (PVDict xs). split; [|split].
          * apply sat_map; [rewrite Ek; exact Hnd|].
            clear -HG. induction HG as [|[k v] [k' x] l xs (_ & Hs & _) _ IH]; [intros ? ? []|].
            intros k0 x0 [[= <- <-]|Hi]; [exact Hs|eapply IH; exact Hi].
          * intros ref. cbn [parse_value]. apply yields_bind with xs; [|apply yields_ret].
            rewrite <- Ek in Hnd. change (keys xs) with (keys (@nil (str * pyval)) ++ keys xs) in Hnd.
            change xs with ((@nil (str * pyval)) ++ xs). revert Hnd. generalize (@nil (str * pyval)).
            clear -HG. induction HG as [|[k v] [k' x] l xs (E & _ & Hy & _) _ IH]; intros done Hnd; simpl in *.
            -- rewrite app_nil_r. apply yields_ret.
            -- subst k'. eapply yields_bind; [apply Hy|]. apply yields_full.
               rewrite upsert_fresh.
               ++ replace (done ++ (k, x) :: xs) with ((done ++ [(k, x)]) ++ xs)
                    by (rewrite <- app_assoc; reflexivity).
                  apply IH. unfold keys. rewrite map_app, <- app_assoc. exact Hnd.
               ++ intros HI. apply NoDup_remove_2 in Hnd. apply Hnd. apply in_or_app. auto.
          * apply rep_map. clear -HG. induction HG as [|? ? ? ? (? & _ & _ & ?)]; constructor; auto.
        + destruct (fields_good (e_props e) l (embed_composite n e He)) as (attrs & HF & HS & HR).
          * intros p v Hi E Hv Hc. rewrite Forall_forall in IH. apply lookup_In in E.
            inversion Hwf as [| | | | | |? Hnd Hw]; subst. inversion Hai as [| | | | | |? Hwi]; subst.
            apply (IH _ E); [eapply Hw; exact E|eapply Hwi; exact E|exact Hc].
          * exact Hp.
          * exists (PVEmbed n attrs). split; [|split].
            -- destruct HS as [HS1 HS2]. eapply sat_embed; eassumption.
            -- intros ref. cbn [parse_value]. rewrite He.
               change (map (fun kv => (fst kv, (snd kv, parse_value X S G R (snd kv)))) l)
                 with (members_of X S G R (JObj l)).
               apply yields_bind with attrs; [|apply yields_ret].
               apply composite_from_yields; [eapply embed_composite; exact He|exact HF].
            -- eapply rep_embed; eassumption.
    Qed.
  End Regs.
End Py.
