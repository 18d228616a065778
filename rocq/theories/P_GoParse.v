(** Values: the generated Go parser reports no error exactly for conforming values. *)
From Verif Require Import Base M_Naming M_Errors M_Dec M_Schema M_Strftime M_Duration M_Num M_GoGen S_Conform S_Common S_GoGen P_Common P_GoBase.
From Coq Require Import String List Arith NArith ZArith Bool Lia Floats.SpecFloat Permutation.
Import ListNotations.

Section Parse.
  Variable X : gext.
  Variable G : graph.
  Variable order : forall A : Type, nat -> str -> list (str * A) -> list (str * A).
  Hypothesis Hord : visits_all order.
  Hypothesis Hbounds : bounds_exact G.
  Variable cap : N.
  Notation es0 := (empty_errs cap).
  Notation val := (goval (g_time X)).

  Lemma bounds_sound b cmp (x y : val) ref :
    gcheck_bounds X b cmp x ref es0 = Done (y, es0) ->
    y = x /\ (forall m, b_min b = Some m -> over (b_exmin b) (cmp m) = true) /\
    (forall m, b_max b = Some m -> under (b_exmax b) (cmp m) = true).
  Proof.
    unfold gcheck_bounds. intros H.
    destruct (b_min b) as [m|], (b_max b) as [m'|];
      repeat match type of H with (if negb ?c then _ else _) _ = _ => destruct c eqn:?; cbn [negb] in H end;
      try (eapply greport_clean; exact H); apply gret_clean in H; subst;
      repeat split; intros ? E; inversion E; subst; assumption.
  Qed.

  Lemma bounds_complete b cmp (x : val) ref :
    (forall m, b_min b = Some m -> over (b_exmin b) (cmp m) = true) ->
    (forall m, b_max b = Some m -> under (b_exmax b) (cmp m) = true) ->
    gcheck_bounds X b cmp x ref es0 = Done (x, es0).
  Proof.
    unfold gcheck_bounds. intros H1 H2. destruct (b_min b) as [m|], (b_max b) as [m'|];
      rewrite ?(H1 _ eq_refl), ?(H2 _ eq_refl); reflexivity.
  Qed.

  (** *** Integers *)
  Lemma integer_sound b v ref (x : val) :
    go_integer X b v ref es0 = Done (x, es0) ->
    exists f z, v = JFloat f /\ float_is f z /\ int64 z /\ in_range b z /\ x = GInt z.
  Proof.
    unfold go_integer. intros H. destruct v as [| | |f| | |]; try (eapply greport_clean; exact H).
    destruct (is_trunc f) eqn:T; cbn [negb] in H; [|eapply greport_clean; exact H].
    destruct (_ || _) eqn:O in H; [eapply greport_clean; exact H|].
    apply orb_false_iff in O as [O1 O2].
    assert (F : is_finite f = true).
    { destruct f as [|s| |]; try reflexivity; [|discriminate].
      destruct s; discriminate. }
    pose proof (trunc_float_is _ T F) as E.
    rewrite (float_is_cmp _ _ _ E) in O1. rewrite (float_is_cmp _ _ _ E) in O2.
    apply bounds_sound in H as (-> & H1 & H2).
    exists f, (trunc_Z f). repeat split; auto.
    - apply not_true_iff_false in O2. rewrite under_Z in O2. lia.
    - apply not_true_iff_false in O1. rewrite over_Z in O1. lia.
    - intros m Hm. apply over_Z. exact (H1 _ Hm).
    - intros m Hm. apply under_Z. exact (H2 _ Hm).
  Qed.

  Lemma integer_complete b f z ref :
    float_is f z -> int64 z -> in_range b z ->
    go_integer X b (JFloat f) ref es0 = Done (GInt z, es0).
  Proof.
    intros H [H1 H2] [H3 H4]. unfold go_integer. destruct (float_is_trunc _ _ H) as [-> ->].
    cbn [negb]. rewrite !(float_is_cmp _ _ _ H).
    replace (over false (Some (z ?= 2 ^ 63)%Z)) with false
      by (symmetry; apply not_true_iff_false; rewrite over_Z; lia).
    replace (under true (Some (z ?= - 2 ^ 63)%Z)) with false
      by (symmetry; apply not_true_iff_false; rewrite under_Z; lia).
    cbn [orb]. apply bounds_complete; intros m Hm; [apply over_Z; exact (H3 _ Hm)|apply under_Z; exact (H4 _ Hm)].
  Qed.

  (** *** Scalars *)
  Ltac crush H := first
    [ eapply greport_clean; exact H
    | apply gret_clean in H; subst ].

  Lemma scalar_sound R v t ref (x : val) :
    scalar t = true -> ty_bounds_exact t -> go_value X G order R v t ref es0 = Done (x, es0) ->
    go_leaf X t v /\ go_scalar_rep X t v x /\ x <> GNil.
  Proof.
    intros S B H.
    assert (H' : match t with
      | TBool => go_boolean X v ref | TInt b => go_integer X b v ref | TFloat b => go_float X b v ref
      | TStr p | TPath p => go_string X p v ref
      | TDate f | TTime f | TDatetime f => go_date_time X f v ref
      | TTimeZone => go_time_zone X v ref | TDuration => go_duration X v ref
      | _ => gpanic PNilTarget end es0 = Done (x, es0))
      by (destruct t; try discriminate; destruct v; exact H).
    clear H. rename H' into H. destruct t; try discriminate; cbn beta iota in H.
    - unfold go_boolean in H. destruct v; crush H. simpl. repeat split; eauto; discriminate.
    - apply integer_sound in H as (f & z & -> & E & I & R' & ->). simpl.
      repeat split; try (exists f, z; auto); discriminate.
    - unfold go_float in H. destruct v as [| | |f| | |]; try (eapply greport_clean; exact H).
      apply bounds_sound in H as (-> & H1 & H2). simpl. destruct B as [B1 B2].
      repeat split; try discriminate; exists f; split; auto; split; intros m Hm.
      + specialize (H1 _ Hm). unfold float_cmp in H1. rewrite representable_const in H1 by auto.
        apply over_f in H1. exact H1.
      + specialize (H2 _ Hm). unfold float_cmp in H2. rewrite representable_const in H2 by auto.
        apply under_f in H2. exact H2.
    - unfold go_string in H. destruct v; try (eapply greport_clean; exact H). destruct pattern as [p|].
      + destruct (g_match X p s) eqn:M; cbn [negb] in H; crush H.
        simpl. repeat split; try discriminate; exists s; split; auto. intros q E. congruence.
      + crush H. simpl. repeat split; try discriminate; exists s; split; auto. intros q E. discriminate.
    - unfold go_string in H. destruct v; try (eapply greport_clean; exact H). destruct pattern as [p|].
      + destruct (g_match X p s) eqn:M; cbn [negb] in H; crush H.
        simpl. repeat split; try discriminate; exists s; split; auto. intros q E. congruence.
      + crush H. simpl. repeat split; try discriminate; exists s; split; auto. intros q E. discriminate.
    - unfold go_date_time in H. destruct v; try (eapply greport_clean; exact H).
      destruct (g_time_parse _ _ _) eqn:E; crush H. simpl. repeat split; try discriminate; eauto.
    - unfold go_date_time in H. destruct v; try (eapply greport_clean; exact H).
      destruct (g_time_parse _ _ _) eqn:E; crush H. simpl. repeat split; try discriminate; eauto.
    - unfold go_date_time in H. destruct v; try (eapply greport_clean; exact H).
      destruct (g_time_parse _ _ _) eqn:E; crush H. simpl. repeat split; try discriminate; eauto.
    - unfold go_time_zone in H. destruct v; try (eapply greport_clean; exact H).
      destruct (g_load _ _) eqn:E; crush H. simpl. repeat split; try discriminate; eauto.
    - unfold go_duration in H. destruct v; try (eapply greport_clean; exact H).
      destruct (go_dur_from _) eqn:E; crush H. simpl. repeat split; try discriminate; eauto.
  Qed.

  Lemma scalar_complete R v t ref :
    scalar t = true -> ty_bounds_exact t -> go_leaf X t v ->
    exists x : val, go_value X G order R v t ref es0 = Done (x, es0).
  Proof.
    intros S B L. destruct t; try discriminate; simpl in L, B.
    - destruct L as [b ->]. eexists. reflexivity.
    - destruct L as (f & z & -> & E & I & R'). eexists. apply integer_complete; eauto.
    - destruct L as (f & -> & L1 & L2). destruct B as [B1 B2]. exists (GFloat f). simpl. unfold go_float.
      apply bounds_complete; intros m Hm; unfold float_cmp; rewrite representable_const by auto.
      + apply over_f. exact (L1 _ Hm).
      + apply under_f. exact (L2 _ Hm).
    - destruct L as (s & -> & M). simpl. unfold go_string. destruct pattern as [p|]; [|eexists; reflexivity].
      rewrite (M _ eq_refl). eexists. reflexivity.
    - destruct L as (s & -> & M). simpl. unfold go_string. destruct pattern as [p|]; [|eexists; reflexivity].
      rewrite (M _ eq_refl). eexists. reflexivity.
    - destruct L as (s & tm & -> & E). simpl. unfold go_date_time. rewrite E. eexists. reflexivity.
    - destruct L as (s & tm & -> & E). simpl. unfold go_date_time. rewrite E. eexists. reflexivity.
    - destruct L as (s & tm & -> & E). simpl. unfold go_date_time. rewrite E. eexists. reflexivity.
    - destruct L as (s & z & -> & E). simpl. unfold go_time_zone. rewrite E. eexists. reflexivity.
    - destruct L as (s & z & -> & E). simpl. unfold go_duration. rewrite E. eexists. reflexivity.
  Qed.

  (** *** Arrays and maps *)
  Lemma items_sound t ref : forall (ps : list (gparser X)) i xs,
    Forall (fun p : gparser X => forall t r, gkeeps (p t r)) ps ->
    go_items X ps t ref i es0 = Done (xs, es0) ->
    Forall2 (fun p x => exists r, p t r es0 = Done (x, es0)) ps xs.
  Proof.
    induction ps as [|p ps IH]; intros i xs K H; simpl in H.
    - apply gret_clean in H. subst. constructor.
    - inversion K as [|? ? K1 K2]; subst.
      apply gbind_clean in H as (x & Hx & H).
      + apply gfull_clean in H. apply gbind_clean in H as (ys & Hys & H); [|intros; apply gkeeps_ret].
        apply gret_clean in H. subst. constructor; eauto.
      + intros x. apply gkeeps_full. apply gkeeps_bind; [apply gkeeps_items; exact K2|]. intros. apply gkeeps_ret.
  Qed.

  Lemma items_complete t ref : forall (ps : list (gparser X)) i,
    Forall (fun p : gparser X => forall r, exists x, p t r es0 = Done (x, es0)) ps ->
    exists xs, go_items X ps t ref i es0 = Done (xs, es0).
  Proof.
    induction ps as [|p ps IH]; intros i H; simpl; [eexists; reflexivity|].
    inversion H as [|? ? H1 H2]; subst. destruct (H1 (gslash ref (dec_nat i))) as [x Hx].
    destruct (IH (Datatypes.S i) H2) as [xs Hxs].
    exists (x :: xs). unfold gbind. rewrite Hx, empty_not_full, Hxs. reflexivity.
  Qed.

  Lemma entries_sound t ref : forall (ps : list (str * gparser X)) target xs,
    Forall (fun kp : str * gparser X => forall t r, gkeeps (snd kp t r)) ps ->
    NoDup (keys ps) -> (forall k, In k (keys target) -> ~ In k (keys ps)) -> NoDup (keys target) ->
    go_entries X ps t ref target es0 = Done (xs, es0) ->
    NoDup (keys xs) /\
    (forall k, In k (keys xs) <-> In k (keys target) \/ In k (keys ps)) /\
    (forall k x, In (k, x) xs -> In (k, x) target \/
       exists p r, In (k, p) ps /\ p t r es0 = Done (x, es0)).
  Proof.
    induction ps as [|[k p] ps IH]; intros target xs K ND D NT H; simpl in H.
    - apply gret_clean in H. subst. simpl. repeat split; auto; intros; tauto.
    - inversion K as [|? ? K1 K2]; subst. inversion ND as [|? ? N1 N2]; subst. simpl in K1.
      apply gbind_clean in H as (x & Hx & H); [|intros x; apply gkeeps_full, gkeeps_entries; exact K2].
      apply gfull_clean in H.
      assert (Hk : ~ In k (keys target)) by (intros C; apply (D k C); left; reflexivity).
      apply IH in H as (A1 & A2 & A3); auto.
      + split; [exact A1|]. split.
        * intros k'. rewrite A2. rewrite upsert_fresh by exact Hk. unfold keys. rewrite map_app, in_app_iff.
          simpl. tauto.
        * intros k' x' H'. apply A3 in H' as [H'|(p' & r & H' & E)].
          -- rewrite upsert_fresh in H' by exact Hk. apply in_app_or in H' as [H'|[H'|[]]]; [auto|].
             injection H' as <- <-. right. exists p. eexists. split; [left; reflexivity|exact Hx].
          -- right. exists p', r. split; [right; exact H'|exact E].
      + intros k' H' C. rewrite upsert_fresh in H' by exact Hk. unfold keys in H'. rewrite map_app in H'.
        apply in_app_or in H' as [H'|[<-|[]]]; [apply (D k' H'); right; exact C|]. exact (N1 C).
      + apply NoDup_keys_upsert. exact NT.
  Qed.

  Lemma entries_complete t ref : forall (ps : list (str * gparser X)) target,
    Forall (fun kp : str * gparser X => forall r, exists x, snd kp t r es0 = Done (x, es0)) ps ->
    exists xs, go_entries X ps t ref target es0 = Done (xs, es0).
  Proof.
    induction ps as [|[k p] ps IH]; intros target H; simpl; [eexists; reflexivity|].
    inversion H as [|? ? H1 H2]; subst. simpl in H1. destruct (H1 (gslash ref k)) as [x Hx].
    unfold gbind. rewrite Hx, empty_not_full. apply IH. exact H2.
  Qed.

  (** *** Properties *)
  Lemma properties_sound (o : gmembers X) ref : members_keep X o ->
    forall ps fields fields',
    NoDup (map (fun p => field (p_name p)) ps) ->
    (forall p, In p ps -> In (field (p_name p)) (keys fields)) ->
    go_properties X ps o ref fields es0 = Done (fields', es0) ->
    keys fields' = keys fields /\
    (forall k, ~ In k (map (fun p => field (p_name p)) ps) -> lookup k fields' = lookup k fields) /\
    (forall p, In p ps ->
       (lookup (p_json p) o = None /\ p_optional p = true /\
        lookup (field (p_name p)) fields' = lookup (field (p_name p)) fields) \/
       (exists (parse : gparser X) x r, lookup (p_json p) o = Some parse /\ parse (p_type p) r es0 = Done (x, es0) /\
                          lookup (field (p_name p)) fields' = Some x)).
  Proof.
    intros Ko. induction ps as [|p ps IH]; intros fields fields' ND HI H; simpl in H.
    - apply gret_clean in H. subst. repeat split; auto. intros p [].
    - inversion ND as [|? ? N1 N2]; subst.
      apply gbind_clean in H as (f1 & H1 & H); [|intros; apply gkeeps_full, gkeeps_properties; exact Ko].
      apply gfull_clean in H.
      assert (P : keys f1 = keys fields /\
                  (forall k, k <> field (p_name p) -> lookup k f1 = lookup k fields) /\
                  ((lookup (p_json p) o = None /\ p_optional p = true /\ f1 = fields) \/
                   (exists (parse : gparser X) x r, lookup (p_json p) o = Some parse /\ parse (p_type p) r es0 = Done (x, es0) /\
                                      lookup (field (p_name p)) f1 = Some x))).
      { unfold go_property in H1. destruct (lookup (p_json p) o) as [parse|] eqn:E.
        - apply gbind_clean in H1 as (x & Hx & H1); [|intros; apply gkeeps_ret].
          apply gret_clean in H1. subst. repeat split.
          + apply keys_upsert_same. apply HI. left. reflexivity.
          + intros k Hk. apply lookup_upsert_neq. auto.
          + right. exists parse, x. eexists. repeat split; [exact Hx|apply lookup_upsert_eq].
        - destruct (p_optional p) eqn:O; [|eapply greport_clean; exact H1].
          apply gret_clean in H1. subst. repeat split; auto. }
      destruct P as (P1 & P2 & P3).
      apply IH in H as (A1 & A2 & A3); [|exact N2|intros q Hq; rewrite P1; apply HI; right; exact Hq].
      split; [congruence|]. split.
      + intros k Hk. simpl in Hk. rewrite A2 by tauto. apply P2. intros ->. tauto.
      + intros q [<-|Hq].
        * rewrite (A2 _ N1). destruct P3 as [(E & O & ->)|(parse & x & r & E & Hx & L)]; [left; auto|].
          right. exists parse, x, r. auto.
        * destruct (A3 q Hq) as [(E & O & L)|Hs]; [|right; exact Hs]. left. repeat split; auto.
          rewrite L. apply P2. intros C. apply N1. rewrite <- C.
          apply in_map_iff. exists q. auto.
  Qed.

  Lemma properties_complete (o : gmembers X) ref : forall ps fields,
    (forall p, In p ps ->
       (lookup (p_json p) o = None /\ p_optional p = true) \/
       (exists parse : gparser X, lookup (p_json p) o = Some parse /\
          forall r, exists x, parse (p_type p) r es0 = Done (x, es0))) ->
    exists fields', go_properties X ps o ref fields es0 = Done (fields', es0).
  Proof.
    induction ps as [|p ps IH]; intros fields H; simpl; [eexists; reflexivity|].
    unfold gbind, go_property.
    destruct (H p (or_introl eq_refl)) as [[-> ->]|(parse & -> & Hp)].
    - unfold gret. rewrite empty_not_full. apply IH. intros q Hq. apply H. right. exact Hq.
    - destruct (Hp (gslash ref (p_json p))) as [x Hx]. unfold gbind. rewrite Hx. unfold gret. rewrite empty_not_full.
      apply IH. intros q Hq. apply H. right. exact Hq.
  Qed.

  Lemma zero_fields_keys ps : keys (zero_fields X ps) = map (fun p => field (p_name p)) ps.
  Proof. unfold keys, zero_fields. rewrite map_map. reflexivity. Qed.

  Lemma lookup_zero ps p : NoDup (map (fun p => field (p_name p)) ps) -> In p ps ->
    lookup (field (p_name p)) (zero_fields X ps) = Some (zero_field X p).
  Proof.
    intros ND H. apply In_lookup; [rewrite zero_fields_keys; exact ND|].
    unfold zero_fields. apply in_map_iff. exists p. auto.
  Qed.

  Hypothesis Hfields : fields_distinct G.

  Section Value.
    Variable R : gregistries.
    Let known (n id : str) : Prop := exists a, gdesignates G R n id a.

    (** The fields parsed from an object, given what holds for its members. *)
    Lemma fields_sound ps l ref fields :
      In ps (composites G) ->
      (forall k v, In (k, v) l -> forall t r x, ty_bounds_exact t ->
         go_value X G order R v t r es0 = Done (x, es0) ->
         conforms G (go_leaf X) known t v /\ grep X G (gdesignates G R) t v x /\ x <> GNil) ->
      (forall k v, In (k, v) l -> forall t r, gkeeps (go_value X G order R v t r)) ->
      go_properties X ps (map (fun kv => (fst kv, go_value X G order R (snd kv))) l) ref
        (zero_fields X ps) es0 = Done (fields, es0) ->
      fields_conform G (go_leaf X) known ps l /\ gfields_rep X G (gdesignates G R) ps l fields.
    Proof.
      intros Hps IH K H.
      pose proof (proj1 Hfields _ Hps) as ND.
      apply properties_sound in H as (A1 & _ & A3).
      - rewrite zero_fields_keys in A1. split.
        + intros p Hp. destruct (A3 p Hp) as [(E & O & _)|(parse & x & r & E & Hx & L)].
          * left. split; [exact O|]. rewrite lookup_map_snd in E.
            destruct (lookup (p_json p) l) eqn:E'; [discriminate|]. left. exact E'.
          * right. rewrite lookup_map_snd in E. destruct (lookup (p_json p) l) as [v|] eqn:E'; [|discriminate].
            simpl in E. injection E as <-. exists v. split; [reflexivity|].
            destruct (IH _ _ (lookup_In _ _ _ E') _ _ _ (Hbounds ps p Hps Hp) Hx) as (C & _).
            split; [|exact C]. intros ->. inversion C as [t v' S L'| | | |]; subst.
            unfold go_leaf in L'. destruct (p_type p); try discriminate; try destruct L' as (?&?&?&?); try destruct L' as (?&?&?); try destruct L' as (?&?); congruence.
        + split; [exact A1|]. intros p Hp. destruct (A3 p Hp) as [(E & O & L)|(parse & x & r & E & Hx & L)].
          * left. rewrite lookup_map_snd in E. destruct (lookup (p_json p) l) eqn:E'; [discriminate|].
            split; [reflexivity|]. rewrite L, (lookup_zero ps p ND Hp). unfold zero_field. rewrite O. reflexivity.
          * right. rewrite lookup_map_snd in E. destruct (lookup (p_json p) l) as [v|] eqn:E'; [|discriminate].
            simpl in E. injection E as <-. exists v, x.
            destruct (IH _ _ (lookup_In _ _ _ E') _ _ _ (Hbounds ps p Hps Hp) Hx) as (C & Rp & Nn). auto.
      - apply Forall_map. apply Forall_forall. intros [k v] Hkv. simpl. intros. eapply K. exact Hkv.
      - exact ND.
      - intros p Hp. rewrite zero_fields_keys. apply in_map_iff. exists p. auto.
    Qed.

    Lemma fields_complete ps l ref fields :
      In ps (composites G) ->
      (forall k v, In (k, v) l -> v <> JNull) ->
      (forall k v, In (k, v) l -> forall t r, ty_bounds_exact t ->
         conforms G (go_leaf X) known t v -> exists x, go_value X G order R v t r es0 = Done (x, es0)) ->
      fields_conform G (go_leaf X) known ps l ->
      exists fields', go_properties X ps (map (fun kv => (fst kv, go_value X G order R (snd kv))) l) ref
        fields es0 = Done (fields', es0).
    Proof.
      intros Hps NN IH H. apply properties_complete. intros p Hp. rewrite lookup_map_snd.
      destruct (H p Hp) as [(O & [E|E])|(v & E & Nn & C)].
      - rewrite E. left. auto.
      - exfalso. eapply NN; [eapply lookup_In; exact E|reflexivity].
      - rewrite E. right. eexists. split; [reflexivity|]. intros r.
        eapply IH; [eapply lookup_In; exact E|apply (Hbounds ps p Hps Hp)|exact C].
    Qed.

    Lemma embed_composite n e : find_embed G n = Some e -> In (e_props e) (composites G).
    Proof.
      intros H. apply find_some in H as [H _]. unfold composites. rewrite !in_app_iff. right. left.
      apply in_map. exact H.
    Qed.

    Lemma value_sound v : json_wf v -> forall t ref x, ty_bounds_exact t ->
      go_value X G order R v t ref es0 = Done (x, es0) ->
      conforms G (go_leaf X) known t v /\ grep X G (gdesignates G R) t v x /\ x <> GNil.
    Proof.
      induction v as [|b|z|f|s|l IH|l IH] using jval_ind'; intros W t ref x B H;
        (destruct (scalar t) eqn:S;
         [apply scalar_sound in H as (H1 & H2 & H3); auto;
          split; [apply conf_scalar; auto|split; [apply grep_scalar; auto|exact H3]]|]);
        destruct t; try discriminate; simpl in H; try (eapply greport_clean; exact H);
        try (destruct (find_embed G name); [|discriminate];
             apply gbind_clean in H as (fs & H & _); [|intros; apply gkeeps_ret];
             unfold go_composite in H; simpl in H; eapply greport_clean; exact H).
      - (* reference *)
        destruct (find_class G name) as [c|] eqn:Ec; [|discriminate].
        fold (registry R c) in H.
        destruct (lookup s (registry R c)) as [a|] eqn:L; [|eapply greport_clean; exact H].
        apply gret_clean in H. subst. repeat split; try discriminate.
        + apply conf_ref. exists a, c. auto.
        + apply grep_ref. exists c. auto.
      - (* array *)
        unfold go_array in H. rewrite map_length in H.
        assert (Z : size_ok minimum_size maximum_size (length l) /\
                    (gdo l <- go_items X (map (go_value X G order R) l) t ref 0; gret (GList l)) es0 = Done (x, es0)).
        { destruct minimum_size as [mn|]; [destruct (Z.ltb_spec (Z.of_nat (length l)) mn); [eapply greport_clean; exact H|]|];
          (destruct maximum_size as [mx|]; [destruct (Z.ltb_spec mx (Z.of_nat (length l))); [eapply greport_clean; exact H|]|]);
          (split; [split; intros ? E; inversion E; subst; lia|exact H]). }
        clear H. destruct Z as [Z H].
        apply gbind_clean in H as (xs & H & Hr); [|intros; apply gkeeps_ret]. apply gret_clean in Hr. subst.
        inversion W as [| | | | |? Wl|]; subst.
        apply items_sound in H; [|apply Forall_map, Forall_forall; intros; apply gkeeps_value; exact Hord].
        assert (F : Forall2 (fun v y => conforms G (go_leaf X) known t v /\ grep X G (gdesignates G R) t v y) l xs).
        { simpl in B. clear -IH H Wl B. revert xs H. induction l as [|v l IHl]; intros xs H; inversion H as [|? y ? ys (r & Hy) Hys]; subst; [constructor|].
          inversion IH as [|? ? I1 I2]; subst. constructor.
          - destruct (I1 (Wl v (or_introl eq_refl)) _ _ _ B Hy) as (C1 & C2 & _). auto.
          - apply IHl; auto. intros. apply Wl. right. auto. }
        repeat split; try discriminate.
        + apply conf_array; [exact Z|]. intros v Hv. clear -F Hv.
          induction F as [|? ? ? ? [F1 _]]; [destruct Hv|]; destruct Hv as [<-|Hv]; auto.
        + apply grep_array. clear -F. induction F as [|? ? ? ? [_ F1]]; constructor; auto.
      - (* map *)
        apply gbind_clean in H as (xs & H & Hr); [|intros; apply gkeeps_ret]. apply gret_clean in Hr. subst.
        inversion W as [| | | | | |? Wd Wl]; subst.
        set (ps := map (fun kv => (fst kv, go_value X G order R (snd kv))) l) in *.
        pose proof (Hord _ 0 ref ps) as Pm.
        apply entries_sound in H as (A1 & A2 & A3).
        + assert (K : forall k, In k (keys l) <-> In k (keys xs)).
          { intros k. rewrite A2. simpl. rewrite <- (keys_map_snd (go_value X G order R) l). fold ps.
            split; [intros Hk; right|intros [[]|Hk]].
            - eapply Permutation_in; [apply Permutation_keys; exact Pm|exact Hk].
            - eapply Permutation_in; [apply Permutation_keys; symmetry; exact Pm|exact Hk]. }
          assert (F : forall k v x, In (k, v) l -> In (k, x) xs ->
                      conforms G (go_leaf X) known t v /\ grep X G (gdesignates G R) t v x).
          { intros k v x Hv Hx. apply A3 in Hx as [[]|(p & r & Hp & E)].
            apply (Permutation_in _ (Permutation_sym Pm)) in Hp. unfold ps in Hp.
            apply in_map_iff in Hp as ([k' v'] & E' & Hv'). simpl in E'. injection E' as -> <-.
            assert (v' = v).
            { apply (In_lookup _ _ _ Wd) in Hv, Hv'. congruence. }
            subst v'. rewrite Forall_forall in IH. simpl in B.
            destruct (IH _ Hv (Wl _ _ Hv) _ _ _ B E) as (C1 & C2 & _). auto. }
          repeat split; try discriminate.
          * apply conf_map. intros k v Hv. destruct (keys_In k xs) as [y Hy]; [apply K; eapply In_keys; exact Hv|].
            apply (F k v y Hv Hy).
          * apply grep_map; auto. intros k v y Hv Hy. apply (F k v y Hv Hy).
        + apply order_Forall; [exact Hord|]. apply Forall_map, Forall_forall. intros. apply gkeeps_value. exact Hord.
        + eapply Permutation_NoDup; [apply Permutation_keys; exact Pm|]. unfold ps. rewrite keys_map_snd. exact Wd.
        + intros k [].
        + constructor.
      - (* embed *)
        destruct (find_embed G name) as [e|] eqn:Ee; [|discriminate].
        apply gbind_clean in H as (fs & H & Hr); [|intros; apply gkeeps_ret]. apply gret_clean in Hr. subst.
        unfold go_composite in H. simpl in H. inversion W as [| | | | | |? Wd Wl]; subst.
        apply fields_sound in H as (C & Rp).
        + repeat split; try discriminate.
          * eapply conf_embed; [exact Ee|exact C].
          * destruct Rp as [Rp1 Rp2]. eapply grep_embed; [exact Ee|exact Rp1|exact Rp2].
        + eapply embed_composite. exact Ee.
        + intros k v Hv t r x Bt E. rewrite Forall_forall in IH. eapply (IH _ Hv); eauto.
        + intros. apply gkeeps_value. exact Hord.
    Qed.

    Lemma value_complete v : no_null v -> forall t ref, ty_bounds_exact t ->
      conforms G (go_leaf X) known t v -> exists x, go_value X G order R v t ref es0 = Done (x, es0).
    Proof.
      induction v as [|b|z|f|s|l IH|l IH] using jval_ind'; intros N t ref B C;
        (destruct (scalar t) eqn:S;
         [ assert (L : go_leaf X t _) by (inversion C; subst; try discriminate; eassumption);
           apply scalar_complete; auto
         |]); inversion C as [? ? S' _|? ? ? ? Hz Hl|? ? Hl|? ? (a & c & Ec & La)|? e ? Ee Hf]; subst; try congruence.
      - simpl. rewrite Ec. fold (registry R c). rewrite La. eexists. reflexivity.
      - inversion N as [| | | |? Nl|]; subst. simpl. unfold go_array. rewrite map_length.
        destruct Hz as [Z1 Z2].
        replace (match mn with Some m => (Z.of_nat (length l) <? m)%Z | None => false end) with false
          by (destruct mn as [m|]; [|reflexivity]; specialize (Z1 _ eq_refl); symmetry; apply Z.ltb_ge; lia).
        replace (match mx with Some m => (m <? Z.of_nat (length l))%Z | None => false end) with false
          by (destruct mx as [m|]; [|reflexivity]; specialize (Z2 _ eq_refl); symmetry; apply Z.ltb_ge; lia).
        destruct (items_complete t0 ref (map (go_value X G order R) l) 0) as [xs Hxs].
        + apply Forall_map. apply Forall_forall. intros v Hv r. rewrite Forall_forall in IH.
          apply (IH v Hv); auto.
        + exists (GList xs). unfold gbind. rewrite Hxs. reflexivity.
      - inversion N as [| | | | |? Nl]; subst. simpl.
        destruct (entries_complete t0 ref (order _ 0 ref (map (fun kv => (fst kv, go_value X G order R (snd kv))) l)) []) as [xs Hxs].
        + apply order_Forall; [exact Hord|]. apply Forall_map. apply Forall_forall. intros [k v] Hv r. simpl.
          rewrite Forall_forall in IH. apply (IH _ Hv); eauto.
        + exists (GMap xs). unfold gbind. rewrite Hxs. reflexivity.
      - inversion N as [| | | | |? Nl]; subst. simpl. rewrite Ee.
        destruct (fields_complete (e_props e) l ref (zero_fields X (e_props e))) as [fs Hfs].
        + eapply embed_composite. exact Ee.
        + intros k v Hv ->. apply Nl in Hv. inversion Hv.
        + intros k v Hv t r Bt Ct. rewrite Forall_forall in IH. apply (IH _ Hv); eauto.
        + exact Hf.
        + exists (GStruct fs). unfold gbind, go_composite. simpl. rewrite Hfs. reflexivity.
    Qed.
  End Value.
End Parse.
