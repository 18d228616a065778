(** Values: the generated C++ parser reports no error exactly for conforming values. *)
From Verif Require Import Base M_Naming M_Errors M_Dec M_Schema M_Duration M_Num M_CppTime M_CppGen S_Conform S_Common S_CppGen P_CppTime P_Common P_CppBase.
From Coq Require Import String List Arith NArith ZArith Bool Lia Floats.SpecFloat Permutation.
Import ListNotations.

Section Parse.
  Variable X : cext.
  Variable G : graph.
  Variable order : forall A : Type, nat -> str -> list (str * A) -> list (str * A).
  Hypothesis Hord : visits_all order.
  Hypothesis Hbounds : bounds_exact G.
  Variable cap : N.
  Hypothesis Hcap : (0 < cap)%N.
  Notation es0 := (empty_errs cap).
  Notation val := (cval (cx_time X)).

  Lemma bounds_sound b cmp (x y : val) ref :
    ccheck_bounds X b cmp x ref es0 = CDone (y, es0) ->
    y = x /\ (forall m, b_min b = Some m -> over (b_exmin b) (cmp m) = true) /\
    (forall m, b_max b = Some m -> under (b_exmax b) (cmp m) = true).
  Proof.
    intros H.
    assert (H' : (cdo ok <- match b_min b with
                  | Some m => if negb (over (b_exmin b) (cmp m))
                              then creport ref (CExpectedBound (cop_min b) m) false else cret true
                  | None => cret true
                  end;
        cdo ok' <- match b_max b with
                   | Some m => if negb (under (b_exmax b) (cmp m))
                               then creport ref (CExpectedBound (cop_max b) m) false else cret ok
                   | None => cret ok
                   end;
        cret (if ok' then x else CZero)) es0 = CDone (y, es0)).
    { unfold ccheck_bounds in H. destruct (b_min b), (b_max b); exact H. }
    clear H. apply cbind_clean in H' as (ok & H1 & H2).
    2: { intros ok. apply ckeeps_bind; [|intros; apply ckeeps_ret]. destruct (b_max b); [|apply ckeeps_ret].
         destruct (negb _); [apply ckeeps_report|apply ckeeps_ret]. }
    apply cbind_clean in H2 as (ok' & H2 & H3); [|intros; apply ckeeps_ret]. apply cret_clean in H3.
    assert (A : ok = true /\ forall m, b_min b = Some m -> over (b_exmin b) (cmp m) = true).
    { destruct (b_min b) as [m|].
      - destruct (over (b_exmin b) (cmp m)) eqn:E; cbn [negb] in H1; [|eapply creport_clean; [exact Hcap|exact H1]].
        apply cret_clean in H1. split; [auto|]. intros m' [= <-]. exact E.
      - apply cret_clean in H1. split; [auto|]. discriminate. }
    destruct A as [-> A].
    assert (B : ok' = true /\ forall m, b_max b = Some m -> under (b_exmax b) (cmp m) = true).
    { destruct (b_max b) as [m|].
      - destruct (under (b_exmax b) (cmp m)) eqn:E; cbn [negb] in H2; [|eapply creport_clean; [exact Hcap|exact H2]].
        apply cret_clean in H2. split; [auto|]. intros m' [= <-]. exact E.
      - apply cret_clean in H2. split; [auto|]. discriminate. }
    destruct B as [-> B]. auto.
  Qed.

  Lemma bounds_complete b cmp (x : val) ref :
    (forall m, b_min b = Some m -> over (b_exmin b) (cmp m) = true) ->
    (forall m, b_max b = Some m -> under (b_exmax b) (cmp m) = true) ->
    ccheck_bounds X b cmp x ref es0 = CDone (x, es0).
  Proof.
    unfold ccheck_bounds. intros H1 H2. destruct (b_min b) as [m|], (b_max b) as [m'|];
      rewrite ?(H1 _ eq_refl), ?(H2 _ eq_refl); reflexivity.
  Qed.

  (** *** Integers *)
  Lemma as_int64_iff v z : as_int64 v = Some z <-> whole v z /\ int64 z.
  Proof.
    unfold as_int64, whole, int64. split.
    - intros H. destruct v as [|b|z'|f| | |]; try discriminate.
      + destruct (_ && _) eqn:E in H; [|discriminate]. injection H as <-.
        apply andb_true_iff in E as [E1 E2]. split; [left; reflexivity|]. lia.
      + destruct (_ && _) eqn:E in H; [|discriminate]. apply some_inj in H. subst z.
        apply andb_true_iff in E as [E E3]. apply andb_true_iff in E as [E1 E2].
        assert (F : is_finite f = true) by (destruct f as [|s| |]; try reflexivity; [destruct s|]; discriminate).
        pose proof (trunc_float_is _ E1 F) as E.
        rewrite (float_is_cmp _ _ _ E) in E2. rewrite (float_is_cmp _ _ _ E) in E3. apply over_Z in E2. apply under_Z in E3.
        split; [right; exists f; auto|]. lia.
    - intros [[->|(f & -> & E)] [H1 H2]].
      + replace (_ && _) with true; [reflexivity|]. symmetry. apply andb_true_iff. lia.
      + destruct (float_is_trunc _ _ E) as [-> ->]. rewrite !(float_is_cmp _ _ _ E).
        replace (over false _) with true by (symmetry; apply over_Z; lia).
        replace (under true _) with true by (symmetry; apply under_Z; lia). reflexivity.
  Qed.

  Lemma as_double_iff v f : as_double v = Some f <-> double v f.
  Proof.
    unfold as_double, double. split.
    - intros H. destruct v; try discriminate; [right; eauto|left; congruence].
    - intros [->|(z & -> & E)]; auto.
  Qed.

  Lemma integer_sound b v ref (x : val) :
    cpp_integer X b v ref es0 = CDone (x, es0) ->
    exists z, whole v z /\ int64 z /\ in_range b z /\ x = CInt z.
  Proof.
    unfold cpp_integer. intros H. destruct (as_int64 v) as [z|] eqn:E; [|eapply creport_clean; [exact Hcap|exact H]].
    apply as_int64_iff in E as [E1 E2].
    apply bounds_sound in H as (-> & H1 & H2).
    exists z. repeat split; auto.
    - apply E2.
    - apply E2.
    - intros m Hm. apply over_Z. exact (H1 _ Hm).
    - intros m Hm. apply under_Z. exact (H2 _ Hm).
  Qed.

  Lemma integer_complete b v z ref :
    whole v z -> int64 z -> in_range b z ->
    cpp_integer X b v ref es0 = CDone (CInt z, es0).
  Proof.
    intros H I [H3 H4]. unfold cpp_integer. rewrite (proj2 (as_int64_iff v z) (conj H I)).
    apply bounds_complete; intros m Hm; [apply over_Z; exact (H3 _ Hm)|apply under_Z; exact (H4 _ Hm)].
  Qed.

  Lemma date_time_sound k f v ref (x : val) : cpp_date_time X k f v ref es0 = CDone (x, es0) ->
    exists s t, v = JStr s /\ time_text X k f s t /\ x = CTime t.
  Proof.
    unfold cpp_date_time, time_text. intros H. destruct v; try (eapply creport_clean; [exact Hcap|exact H]).
    destruct (cx_date_h X).
    - destruct (cx_date_parse X k f s) as [[t r]|] eqn:E; [|eapply creport_clean; [exact Hcap|exact H]].
      apply cret_clean in H. exists s, t. eauto.
    - destruct (cx_strptime X f (c_str s)) as [[t [|c r]]|] eqn:E; try (eapply creport_clean; [exact Hcap|exact H]).
      apply cret_clean in H. exists s, t. split; [reflexivity|]. split; [|now symmetry]. exists (c_str s). split; [now apply up_to_nul_c_str | exact E].
  Qed.

  Lemma date_time_complete k f s t ref : time_text X k f s t ->
    exists x : val, cpp_date_time X k f (JStr s) ref es0 = CDone (x, es0).
  Proof.
    unfold cpp_date_time, time_text. intros H. destruct (cx_date_h X).
    - destruct H as [r ->]. eexists. reflexivity.
    - destruct H as (s' & Hs & H). apply up_to_nul_c_str in Hs. rewrite Hs, H. eexists. reflexivity.
  Qed.

  (** *** Scalars *)
  Ltac crush H := first
    [ eapply creport_clean; [exact Hcap|exact H]
    | apply cret_clean in H; subst ].

  Lemma scalar_sound R v t ref (x : val) :
    scalar t = true -> ty_bounds_exact t -> cpp_value X G order R v t ref es0 = CDone (x, es0) ->
    cpp_leaf X t v /\ cpp_scalar_rep X t v x /\ x <> CNil.
  Proof.
    intros S B H.
    assert (H' : match t with
      | TBool => cpp_boolean X v ref | TInt b => cpp_integer X b v ref | TFloat b => cpp_float X b v ref
      | TStr p | TPath p => cpp_string X p v ref
      | TDate f => cpp_date_time X KDate f v ref
      | TTime f => cpp_date_time X KTime f v ref
      | TDatetime f => cpp_date_time X KDatetime f v ref
      | TTimeZone => cpp_time_zone X v ref | TDuration => cpp_duration X v ref
      | _ => cthrow XUndefined end es0 = CDone (x, es0))
      by (destruct t; try discriminate; destruct v; exact H).
    clear H. rename H' into H. destruct t; try discriminate; cbn beta iota in H.
    - unfold cpp_boolean in H. destruct v; crush H. simpl. repeat split; eauto; discriminate.
    - apply integer_sound in H as (z & E & I & R' & ->). simpl.
      repeat split; try (exists z; auto); discriminate.
    - unfold cpp_float in H. destruct (as_double v) as [f|] eqn:E; [|crush H].
      apply as_double_iff in E.
      apply bounds_sound in H as (-> & H1 & H2). simpl. destruct B as [B1 B2].
      repeat split; try discriminate; exists f; split; auto; split; intros m Hm.
      + specialize (H1 _ Hm). unfold float_cmp in H1. rewrite representable_const in H1 by auto.
        apply over_f in H1. exact H1.
      + specialize (H2 _ Hm). unfold float_cmp in H2. rewrite representable_const in H2 by auto.
        apply under_f in H2. exact H2.
    - unfold cpp_string in H. destruct v; try (crush H; fail). destruct pattern as [p|].
      + destruct (cx_match X p s) eqn:M; cbn [negb] in H; crush H.
        simpl. repeat split; try discriminate; exists s; split; auto. intros q E. congruence.
      + crush H. simpl. repeat split; try discriminate; exists s; split; auto. intros q E. discriminate.
    - unfold cpp_string in H. destruct v; try (crush H; fail). destruct pattern as [p|].
      + destruct (cx_match X p s) eqn:M; cbn [negb] in H; crush H.
        simpl. repeat split; try discriminate; exists s; split; auto. intros q E. congruence.
      + crush H. simpl. repeat split; try discriminate; exists s; split; auto. intros q E. discriminate.
    - apply date_time_sound in H as (s & tm & -> & E & ->). simpl. repeat split; try discriminate; eauto.
    - apply date_time_sound in H as (s & tm & -> & E & ->). simpl. repeat split; try discriminate; eauto.
    - apply date_time_sound in H as (s & tm & -> & E & ->). simpl. repeat split; try discriminate; eauto.
    - unfold cpp_time_zone in H. destruct v; try (crush H; fail). simpl. unfold zone_text.
      destruct (cx_date_h X).
      + destruct (cx_locate X s) as [z|] eqn:E; crush H. repeat split; try discriminate; eauto.
      + crush H. repeat split; try discriminate; eauto.
    - unfold cpp_duration in H. destruct v; try (crush H; fail). simpl.
      destruct (cpp_dur_from _ _) as [d| |] eqn:E; [crush H| |discriminate].
      + repeat split; try discriminate; exists s, d; auto.
      + crush H.
  Qed.

  Lemma scalar_complete R v t ref :
    scalar t = true -> ty_bounds_exact t -> cpp_leaf X t v ->
    exists x : val, cpp_value X G order R v t ref es0 = CDone (x, es0).
  Proof.
    intros S B L. destruct t; try discriminate; simpl in L, B.
    - destruct L as [b ->]. eexists. reflexivity.
    - destruct L as (z & E & I & R'). exists (CInt z).
      transitivity (cpp_integer X b v ref es0); [destruct v; reflexivity|]. apply integer_complete; eauto.
    - destruct L as (f & E & L1 & L2). destruct B as [B1 B2]. exists (CFloat f).
      transitivity (cpp_float X b v ref es0); [destruct v; reflexivity|]. unfold cpp_float.
      rewrite (proj2 (as_double_iff v f) E).
      apply bounds_complete; intros m Hm; unfold float_cmp; rewrite representable_const by auto.
      + apply over_f. exact (L1 _ Hm).
      + apply under_f. exact (L2 _ Hm).
    - destruct L as (s & -> & M). simpl. unfold cpp_string. destruct pattern as [p|]; [|eexists; reflexivity].
      rewrite (M _ eq_refl). eexists. reflexivity.
    - destruct L as (s & -> & M). simpl. unfold cpp_string. destruct pattern as [p|]; [|eexists; reflexivity].
      rewrite (M _ eq_refl). eexists. reflexivity.
    - destruct L as (s & tm & -> & E). eapply date_time_complete. exact E.
    - destruct L as (s & tm & -> & E). eapply date_time_complete. exact E.
    - destruct L as (s & tm & -> & E). eapply date_time_complete. exact E.
    - destruct L as (s & z & -> & E). simpl. unfold cpp_time_zone. unfold zone_text in E.
      destruct (cx_date_h X); [rewrite E|]; eexists; reflexivity.
    - destruct L as (s & d & -> & E). simpl. unfold cpp_duration. rewrite E. eexists. reflexivity.
  Qed.

  Lemma leaf_null t : ~ cpp_leaf X t JNull.
  Proof.
    unfold cpp_leaf, whole, double. destruct t; intros L; try exact L;
      repeat match goal with H : exists _, _ |- _ => destruct H | H : _ /\ _ |- _ => destruct H
             | H : _ \/ _ |- _ => destruct H end; discriminate.
  Qed.

  (** *** Arrays and maps *)
  Lemma items_sound t ref : forall (ps : list (cparser X)) i xs,
    Forall (fun p : cparser X => forall t r, ckeeps (p t r)) ps ->
    cpp_items X ps t ref i es0 = CDone (xs, es0) ->
    Forall2 (fun p x => exists r, p t r es0 = CDone (x, es0)) ps xs.
  Proof.
    induction ps as [|p ps IH]; intros i xs K H; simpl in H.
    - apply cret_clean in H. subst. constructor.
    - inversion K as [|? ? K1 K2]; subst.
      apply cbind_clean in H as (x & Hx & H).
      + apply (cfull_clean _ _ _ _ Hcap) in H. apply cbind_clean in H as (ys & Hys & H); [|intros; apply ckeeps_ret].
        apply cret_clean in H. subst. constructor; eauto.
      + intros x. apply ckeeps_full. apply ckeeps_bind; [apply ckeeps_items; exact K2|]. intros. apply ckeeps_ret.
  Qed.

  Lemma items_complete t ref : forall (ps : list (cparser X)) i,
    Forall (fun p : cparser X => forall r, exists x, p t r es0 = CDone (x, es0)) ps ->
    exists xs, cpp_items X ps t ref i es0 = CDone (xs, es0).
  Proof.
    induction ps as [|p ps IH]; intros i H; simpl; [eexists; reflexivity|].
    inversion H as [|? ? H1 H2]; subst. destruct (H1 (cslash ref (dec_nat i))) as [x Hx].
    destruct (IH (Datatypes.S i) H2) as [xs Hxs].
    exists (x :: xs). unfold cbind. rewrite Hx, (empty_not_full _ Hcap), Hxs. reflexivity.
  Qed.

  Lemma entries_sound t ref : forall (ps : list (str * cparser X)) target xs,
    Forall (fun kp : str * cparser X => forall t r, ckeeps (snd kp t r)) ps ->
    NoDup (keys ps) -> (forall k, In k (keys target) -> ~ In k (keys ps)) -> NoDup (keys target) ->
    cpp_entries X ps t ref target es0 = CDone (xs, es0) ->
    NoDup (keys xs) /\
    (forall k, In k (keys xs) <-> In k (keys target) \/ In k (keys ps)) /\
    (forall k x, In (k, x) xs -> In (k, x) target \/
       exists p r, In (k, p) ps /\ p t r es0 = CDone (x, es0)).
  Proof.
    induction ps as [|[k p] ps IH]; intros target xs K ND D NT H; simpl in H.
    - apply cret_clean in H. subst. simpl. repeat split; auto; intros; tauto.
    - inversion K as [|? ? K1 K2]; subst. inversion ND as [|? ? N1 N2]; subst. simpl in K1.
      apply cbind_clean in H as (x & Hx & H); [|intros x; apply ckeeps_full, ckeeps_entries; exact K2].
      apply (cfull_clean _ _ _ _ Hcap) in H.
      assert (Hk : ~ In k (keys target)) by (intros C; apply (D k C); left; reflexivity).
      apply IH in H as (A1 & A2 & A3); auto.
      + split; [exact A1|]. split.
        * intros k'. rewrite A2. rewrite upsert_fresh by exact Hk. unfold keys. rewrite map_app, in_app_iff.
          simpl. tauto.
        * intros k' x' H'. apply A3 in H' as [H'|(p' & r & H' & E)].
          -- rewrite upsert_fresh in H' by exact Hk. apply in_app_or in H' as [H'|[H'|[]]]; [auto|].
             injection H' as <- <-. right. exists p. eexists. split; [left; reflexivity|exact Hx].
          -- right. exists p', r. split; [right; exact H'|exact E].
      + intros k' H' C. rewrite upsert_fresh in H' by exact Hk. unfold keys in H'. rewrite map_app in H'.
        apply in_app_or in H' as [H'|[<-|[]]]; [apply (D k' H'); right; exact C|]. exact (N1 C).
      + apply NoDup_keys_upsert. exact NT.
  Qed.

  Lemma entries_complete t ref : forall (ps : list (str * cparser X)) target,
    Forall (fun kp : str * cparser X => forall r, exists x, snd kp t r es0 = CDone (x, es0)) ps ->
    exists xs, cpp_entries X ps t ref target es0 = CDone (xs, es0).
  Proof.
    induction ps as [|[k p] ps IH]; intros target H; simpl; [eexists; reflexivity|].
    inversion H as [|? ? H1 H2]; subst. simpl in H1. destruct (H1 (cslash ref k)) as [x Hx].
    unfold cbind. rewrite Hx, (empty_not_full _ Hcap). apply IH. exact H2.
  Qed.

  (** *** Properties *)
  Lemma properties_sound (o : cmembers X) ref : members_keep X o ->
    forall ps fields fields',
    NoDup (map p_name ps) ->
    (forall p, In p ps -> cfield (p_name p) = p_name p) ->
    (forall p, In p ps -> In (p_name p) (keys fields)) ->
    cpp_properties X ps o ref fields es0 = CDone (fields', es0) ->
    keys fields' = keys fields /\
    (forall k, ~ In k (map p_name ps) -> lookup k fields' = lookup k fields) /\
    (forall p, In p ps ->
       (lookup (p_json p) o = None /\ p_optional p = true /\
        lookup (p_name p) fields' = lookup (p_name p) fields) \/
       (exists (parse : cparser X) x r, lookup (p_json p) o = Some parse /\ parse (p_type p) r es0 = CDone (x, es0) /\
                          lookup (p_name p) fields' = Some x)).
  Proof.
    intros Ko. induction ps as [|p ps IH]; intros fields fields' ND LW HI H; simpl in H.
    - apply cret_clean in H. subst. repeat split; auto. intros p [].
    - inversion ND as [|? ? N1 N2]; subst.
      apply cbind_clean in H as (f1 & H1 & H); [|intros; apply ckeeps_full, ckeeps_properties; exact Ko].
      apply (cfull_clean _ _ _ _ Hcap) in H.
      assert (P : keys f1 = keys fields /\
                  (forall k, k <> p_name p -> lookup k f1 = lookup k fields) /\
                  ((lookup (p_json p) o = None /\ p_optional p = true /\ f1 = fields) \/
                   (exists (parse : cparser X) x r, lookup (p_json p) o = Some parse /\ parse (p_type p) r es0 = CDone (x, es0) /\
                                      lookup (p_name p) f1 = Some x))).
      { unfold cpp_property in H1. destruct (lookup (p_json p) o) as [parse|] eqn:E.
        - apply cbind_clean in H1 as (x & Hx & H1); [|intros; apply ckeeps_ret].
          apply cret_clean in H1. rewrite (LW p (or_introl eq_refl)) in H1. subst. repeat split.
          + apply keys_upsert_same. apply HI. left. reflexivity.
          + intros k Hk. apply lookup_upsert_neq. auto.
          + right. exists parse, x. eexists. repeat split; [exact Hx|apply lookup_upsert_eq].
        - destruct (p_optional p) eqn:O; [|eapply creport_clean; [exact Hcap|exact H1]].
          apply cret_clean in H1. subst. repeat split; auto. }
      destruct P as (P1 & P2 & P3).
      apply IH in H as (A1 & A2 & A3); [|exact N2|intros q Hq; apply LW; right; exact Hq|intros q Hq; rewrite P1; apply HI; right; exact Hq].
      split; [congruence|]. split.
      + intros k Hk. simpl in Hk. rewrite A2 by tauto. apply P2. intros ->. tauto.
      + intros q [<-|Hq].
        * rewrite (A2 _ N1). destruct P3 as [(E & O & ->)|(parse & x & r & E & Hx & L)]; [left; auto|].
          right. exists parse, x, r. auto.
        * destruct (A3 q Hq) as [(E & O & L)|Hs]; [|right; exact Hs]. left. repeat split; auto.
          rewrite L. apply P2. intros C. apply N1. rewrite <- C.
          apply in_map_iff. exists q. auto.
  Qed.

  Lemma properties_complete (o : cmembers X) ref : forall ps fields,
    (forall p, In p ps ->
       (lookup (p_json p) o = None /\ p_optional p = true) \/
       (exists parse : cparser X, lookup (p_json p) o = Some parse /\
          forall r, exists x, parse (p_type p) r es0 = CDone (x, es0))) ->
    exists fields', cpp_properties X ps o ref fields es0 = CDone (fields', es0).
  Proof.
    induction ps as [|p ps IH]; intros fields H; simpl; [eexists; reflexivity|].
    unfold cbind, cpp_property.
    destruct (H p (or_introl eq_refl)) as [[-> ->]|(parse & -> & Hp)].
    - unfold cret. rewrite (empty_not_full _ Hcap). apply IH. intros q Hq. apply H. right. exact Hq.
    - destruct (Hp (cslash ref (p_json p))) as [x Hx]. unfold cbind. rewrite Hx. unfold cret. rewrite (empty_not_full _ Hcap).
      apply IH. intros q Hq. apply H. right. exact Hq.
  Qed.

  Lemma zero_fields_keys ps : keys (default_fields X ps) = map p_name ps.
  Proof. unfold keys, default_fields. rewrite map_map. reflexivity. Qed.

  Lemma lookup_zero ps p : NoDup (map p_name ps) -> In p ps ->
    lookup (p_name p) (default_fields X ps) = Some (default_field X p).
  Proof.
    intros ND H. apply In_lookup; [rewrite zero_fields_keys; exact ND|].
    unfold default_fields. apply in_map_iff. exists p. auto.
  Qed.

  Hypothesis Hfields : cfields_distinct G.
  Hypothesis Hlower : names_lower G.

  Section Value.
    Variable R : cregistries.
    Let known (n id : str) : Prop := exists a, cdesignates G R n id a.

    (** The fields parsed from an object, given what holds for its members. *)
    Lemma fields_sound ps l ref fields :
      In ps (composites G) ->
      (forall k v, In (k, v) l -> forall t r x, ty_bounds_exact t ->
         cpp_value X G order R v t r es0 = CDone (x, es0) ->
         conforms G (cpp_leaf X) known t v /\ crep X G (cdesignates G R) t v x /\ x <> CNil) ->
      (forall k v, In (k, v) l -> forall t r, ckeeps (cpp_value X G order R v t r)) ->
      cpp_properties X ps (map (fun kv => (fst kv, cpp_value X G order R (snd kv))) l) ref
        (default_fields X ps) es0 = CDone (fields, es0) ->
      fields_conform G (cpp_leaf X) known ps l /\ cfields_rep X G (cdesignates G R) ps l fields.
    Proof.
      intros Hps IH K H.
      pose proof (proj1 Hfields _ Hps) as ND.
      apply properties_sound in H as (A1 & _ & A3).
      - rewrite zero_fields_keys in A1. split.
        + intros p Hp. destruct (A3 p Hp) as [(E & O & _)|(parse & x & r & E & Hx & L)].
          * left. split; [exact O|]. rewrite lookup_map_snd in E.
            destruct (lookup (p_json p) l) eqn:E'; [discriminate|]. left. exact E'.
          * right. rewrite lookup_map_snd in E. destruct (lookup (p_json p) l) as [v|] eqn:E'; [|discriminate].
            simpl in E. injection E as <-. exists v. split; [reflexivity|].
            destruct (IH _ _ (lookup_In _ _ _ E') _ _ _ (Hbounds ps p Hps Hp) Hx) as (C & _).
            split; [|exact C]. intros ->. inversion C as [t v' S L'| | | |]; subst.
            exact (leaf_null _ L').
        + split; [exact A1|]. intros p Hp. destruct (A3 p Hp) as [(E & O & L)|(parse & x & r & E & Hx & L)].
          * left. rewrite lookup_map_snd in E. destruct (lookup (p_json p) l) eqn:E'; [discriminate|].
            split; [reflexivity|]. rewrite L, (lookup_zero ps p ND Hp). unfold default_field. rewrite O. reflexivity.
          * right. rewrite lookup_map_snd in E. destruct (lookup (p_json p) l) as [v|] eqn:E'; [|discriminate].
            simpl in E. injection E as <-. exists v, x.
            destruct (IH _ _ (lookup_In _ _ _ E') _ _ _ (Hbounds ps p Hps Hp) Hx) as (C & Rp & Nn). auto.
      - apply Forall_map. apply Forall_forall. intros [k v] Hkv. simpl. intros. eapply K. exact Hkv.
      - exact ND.
      - intros p Hp. exact (Hlower _ _ Hps Hp).
      - intros p Hp. rewrite zero_fields_keys. apply in_map_iff. exists p. auto.
    Qed.

    Lemma fields_complete ps l ref fields :
      In ps (composites G) ->
      (forall k v, In (k, v) l -> v <> JNull) ->
      (forall k v, In (k, v) l -> forall t r, ty_bounds_exact t ->
         conforms G (cpp_leaf X) known t v -> exists x, cpp_value X G order R v t r es0 = CDone (x, es0)) ->
      fields_conform G (cpp_leaf X) known ps l ->
      exists fields', cpp_properties X ps (map (fun kv => (fst kv, cpp_value X G order R (snd kv))) l) ref
        fields es0 = CDone (fields', es0).
    Proof.
      intros Hps NN IH H. apply properties_complete. intros p Hp. rewrite lookup_map_snd.
      destruct (H p Hp) as [(O & [E|E])|(v & E & Nn & C)].
      - rewrite E. left. auto.
      - exfalso. eapply NN; [eapply lookup_In; exact E|reflexivity].
      - rewrite E. right. eexists. split; [reflexivity|]. intros r.
        eapply IH; [eapply lookup_In; exact E|apply (Hbounds ps p Hps Hp)|exact C].
    Qed.

    Lemma embed_composite n e : find_embed G n = Some e -> In (e_props e) (composites G).
    Proof.
      intros H. apply find_some in H as [H _]. unfold composites. rewrite !in_app_iff. right. left.
      apply in_map. exact H.
    Qed.

    Lemma value_sound v : json_wf v -> forall t ref x, ty_bounds_exact t ->
      cpp_value X G order R v t ref es0 = CDone (x, es0) ->
      conforms G (cpp_leaf X) known t v /\ crep X G (cdesignates G R) t v x /\ x <> CNil.
    Proof.
      induction v as [|b|z|f|s|l IH|l IH] using jval_ind'; intros W t ref x B H;
        (destruct (scalar t) eqn:S;
         [apply scalar_sound in H as (H1 & H2 & H3); auto;
          split; [apply conf_scalar; auto|split; [apply crep_scalar; auto|exact H3]]|]);
        destruct t; try discriminate; simpl in H; try (eapply creport_clean; [exact Hcap|exact H]; fail);
        try (destruct (find_embed G name); [|discriminate];
             apply cbind_clean in H as (fs & H & _); [|intros; apply ckeeps_ret];
             unfold cpp_composite in H; simpl in H; eapply creport_clean; [exact Hcap|exact H]).
      - (* reference *)
        destruct (find_class G name) as [c|] eqn:Ec; [|discriminate].
        fold (cregistry R c) in H.
        destruct (lookup s (cregistry R c)) as [a|] eqn:L; [|eapply creport_clean; [exact Hcap|exact H]].
        apply cret_clean in H. subst. repeat split; try discriminate.
        + apply conf_ref. exists a, c. auto.
        + apply crep_ref. exists c. auto.
      - (* array *)
        unfold cpp_array in H. rewrite map_length in H.
        assert (Z : size_ok minimum_size maximum_size (length l) /\
                    (cdo l <- cpp_items X (map (cpp_value X G order R) l) t ref 0; cret (CList l)) es0 = CDone (x, es0)).
        { destruct minimum_size as [mn|]; [destruct (Z.ltb_spec (Z.of_nat (length l)) mn); [eapply creport_clean; [exact Hcap|exact H]|]|];
          (destruct maximum_size as [mx|]; [destruct (Z.ltb_spec mx (Z.of_nat (length l))); [eapply creport_clean; [exact Hcap|exact H]|]|]);
          (split; [split; intros ? E; inversion E; subst; lia|exact H]). }
        clear H. destruct Z as [Z H].
        apply cbind_clean in H as (xs & H & Hr); [|intros; apply ckeeps_ret]. apply cret_clean in Hr. subst.
        inversion W as [| | | | |? Wl|]; subst.
        apply items_sound in H; [|apply Forall_map, Forall_forall; intros; apply ckeeps_value; exact Hord].
        assert (F : Forall2 (fun v y => conforms G (cpp_leaf X) known t v /\ crep X G (cdesignates G R) t v y) l xs).
        { simpl in B. clear -IH H Wl B. revert xs H. induction l as [|v l IHl]; intros xs H; inversion H as [|? y ? ys (r & Hy) Hys]; subst; [constructor|].
          inversion IH as [|? ? I1 I2]; subst. constructor.
          - destruct (I1 (Wl v (or_introl eq_refl)) _ _ _ B Hy) as (C1 & C2 & _). auto.
          - apply IHl; auto. intros. apply Wl. right. auto. }
        repeat split; try discriminate.
        + apply conf_array; [exact Z|]. intros v Hv. clear -F Hv.
          induction F as [|? ? ? ? [F1 _]]; [destruct Hv|]; destruct Hv as [<-|Hv]; auto.
        + apply crep_array. clear -F. induction F as [|? ? ? ? [_ F1]]; constructor; auto.
      - (* map *)
        apply cbind_clean in H as (xs & H & Hr); [|intros; apply ckeeps_ret]. apply cret_clean in Hr. subst.
        inversion W as [| | | | | |? Wd Wl]; subst.
        set (ps := map (fun kv => (fst kv, cpp_value X G order R (snd kv))) l) in *.
        pose proof (Hord _ 0 ref ps) as Pm.
        apply entries_sound in H as (A1 & A2 & A3).
        + assert (K : forall k, In k (keys l) <-> In k (keys xs)).
          { intros k. rewrite A2. simpl. rewrite <- (keys_map_snd (cpp_value X G order R) l). fold ps.
            split; [intros Hk; right|intros [[]|Hk]].
            - eapply Permutation_in; [apply Permutation_keys; exact Pm|exact Hk].
            - eapply Permutation_in; [apply Permutation_keys; symmetry; exact Pm|exact Hk]. }
          assert (F : forall k v x, In (k, v) l -> In (k, x) xs ->
                      conforms G (cpp_leaf X) known t v /\ crep X G (cdesignates G R) t v x).
          { intros k v x Hv Hx. apply A3 in Hx as [[]|(p & r & Hp & E)].
            apply (Permutation_in _ (Permutation_sym Pm)) in Hp. unfold ps in Hp.
            apply in_map_iff in Hp as ([k' v'] & E' & Hv'). simpl in E'. injection E' as -> <-.
            assert (v' = v).
            { apply (In_lookup _ _ _ Wd) in Hv, Hv'. congruence. }
            subst v'. rewrite Forall_forall in IH. simpl in B.
            destruct (IH _ Hv (Wl _ _ Hv) _ _ _ B E) as (C1 & C2 & _). auto. }
          repeat split; try discriminate.
          * apply conf_map. intros k v Hv. destruct (keys_In k xs) as [y Hy]; [apply K; eapply In_keys; exact Hv|].
            apply (F k v y Hv Hy).
          * apply crep_map; auto. intros k v y Hv Hy. apply (F k v y Hv Hy).
        + apply order_Forall; [exact Hord|]. apply Forall_map, Forall_forall. intros. apply ckeeps_value. exact Hord.
        + eapply Permutation_NoDup; [apply Permutation_keys; exact Pm|]. unfold ps. rewrite keys_map_snd. exact Wd.
        + intros k [].
        + constructor.
      - (* embed *)
        destruct (find_embed G name) as [e|] eqn:Ee; [|discriminate].
        apply cbind_clean in H as (fs & H & Hr); [|intros; apply ckeeps_ret]. apply cret_clean in Hr. subst.
        unfold cpp_composite in H. simpl in H. inversion W as [| | | | | |? Wd Wl]; subst.
        apply fields_sound in H as (C & Rp).
        + repeat split; try discriminate.
          * eapply conf_embed; [exact Ee|exact C].
          * destruct Rp as [Rp1 Rp2]. eapply crep_embed; [exact Ee|exact Rp1|exact Rp2].
        + eapply embed_composite. exact Ee.
        + intros k v Hv t r x Bt E. rewrite Forall_forall in IH. eapply (IH _ Hv); eauto.
        + intros. apply ckeeps_value. exact Hord.
    Qed.

    Lemma value_complete v : no_null v -> forall t ref, ty_bounds_exact t ->
      conforms G (cpp_leaf X) known t v -> exists x, cpp_value X G order R v t ref es0 = CDone (x, es0).
    Proof.
      induction v as [|b|z|f|s|l IH|l IH] using jval_ind'; intros N t ref B C;
        (destruct (scalar t) eqn:S;
         [ assert (L : cpp_leaf X t _) by (inversion C; subst; try discriminate; eassumption);
           apply scalar_complete; auto
         |]); inversion C as [? ? S' _|? ? ? ? Hz Hl|? ? Hl|? ? (a & c & Ec & La)|? e ? Ee Hf]; subst; try congruence.
      - simpl. rewrite Ec. fold (cregistry R c). rewrite La. eexists. reflexivity.
      - inversion N as [| | | |? Nl|]; subst. simpl. unfold cpp_array. rewrite map_length.
        destruct Hz as [Z1 Z2].
        replace (match mn with Some m => (Z.of_nat (length l) <? m)%Z | None => false end) with false
          by (destruct mn as [m|]; [|reflexivity]; specialize (Z1 _ eq_refl); symmetry; apply Z.ltb_ge; lia).
        replace (match mx with Some m => (m <? Z.of_nat (length l))%Z | None => false end) with false
          by (destruct mx as [m|]; [|reflexivity]; specialize (Z2 _ eq_refl); symmetry; apply Z.ltb_ge; lia).
        destruct (items_complete t0 ref (map (cpp_value X G order R) l) 0) as [xs Hxs].
        + apply Forall_map. apply Forall_forall. intros v Hv r. rewrite Forall_forall in IH.
          apply (IH v Hv); auto.
        + exists (CList xs). unfold cbind. rewrite Hxs. reflexivity.
      - inversion N as [| | | | |? Nl]; subst. simpl.
        destruct (entries_complete t0 ref (order _ 0 ref (map (fun kv => (fst kv, cpp_value X G order R (snd kv))) l)) []) as [xs Hxs].
        + apply order_Forall; [exact Hord|]. apply Forall_map. apply Forall_forall. intros [k v] Hv r. simpl.
          rewrite Forall_forall in IH. apply (IH _ Hv); eauto.
        + exists (CMap xs). unfold cbind. rewrite Hxs. reflexivity.
      - inversion N as [| | | | |? Nl]; subst. simpl. rewrite Ee.
        destruct (fields_complete (e_props e) l ref (default_fields X (e_props e))) as [fs Hfs].
        + eapply embed_composite. exact Ee.
        + intros k v Hv ->. apply Nl in Hv. inversion Hv.
        + intros k v Hv t r Bt Ct. rewrite Forall_forall in IH. apply (IH _ Hv); eauto.
        + exact Hf.
        + exists (CStruct fs). unfold cbind, cpp_composite. simpl. rewrite Hfs. reflexivity.
    Qed.
  End Value.
End Parse.
