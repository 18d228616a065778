(** C06: a run with a smaller capacity reports a prefix of the errors. *)
From Verif Require Import Base M_Naming M_Errors M_Dec M_Schema M_PyGen P_PyBase.
From Coq Require Import String List Arith NArith ZArith Bool Lia.
Import ListNotations.

(** Both runs recorded the same errors so far and neither container is full. *)
Definition synced (es1 es2 : errs) : Prop :=
  py_values es1 = py_values es2 /\
  (Z.of_nat (length (py_values es1)) < py_cap es1)%Z /\ (py_cap es1 <= py_cap es2)%Z.

(** The first run is full and its errors are a prefix of the errors of the second. *)
Definition behind (es1 es2 : errs) : Prop :=
  py_full es1 = true /\ exists l, py_values es2 = py_values es1 ++ l.

Definition sim {A} (m : M A) : Prop :=
  forall es1 es2 a2 es2', synced es1 es2 -> m es2 = Ok (a2, es2') ->
  exists a1 es1', m es1 = Ok (a1, es1') /\ ((a1 = a2 /\ synced es1' es2') \/ behind es1' es2').

(** Once full, the computation runs to its end without changing the container. *)
Definition halts {A} (m : M A) : Prop :=
  forall es, py_full es = true -> exists a, m es = Ok (a, es).

Lemma synced_not_full es1 es2 : synced es1 es2 -> py_full es1 = false /\ py_full es2 = false.
Proof.
  intros (H1 & H2 & H3). unfold py_full. rewrite <- H1.
  split; apply Z.eqb_neq; lia.
Qed.

Lemma full_add ref m es : py_full es = true -> add ref m es = es.
Proof.
  unfold py_full, add, py_add. rewrite Z.eqb_eq. intros ->.
  rewrite Z.ltb_irrefl. reflexivity.
Qed.

Lemma behind_grown es1 es2 es2' : behind es1 es2 -> grown es2 es2' -> behind es1 es2'.
Proof.
  intros [H1 [l H2]] [_ [l' H3]]. split; [exact H1|].
  exists (l ++ l'). rewrite H3, H2, app_assoc. reflexivity.
Qed.

Lemma synced_add ref m es1 es2 : synced es1 es2 ->
  synced (add ref m es1) (add ref m es2) \/ behind (add ref m es1) (add ref m es2).
Proof.
  intros (H1 & H2 & H3). unfold add, py_add. rewrite <- H1.
  destruct (Z.ltb_spec (Z.of_nat (length (py_values es1))) (py_cap es1)); [|lia].
  destruct (Z.ltb_spec (Z.of_nat (length (py_values es1))) (py_cap es2)); [|lia].
  destruct (Z.eq_dec (Z.of_nat (length (py_values es1)) + 1) (py_cap es1)) as [E|E].
  - right. split.
    + unfold py_full. simpl. rewrite app_length. simpl. apply Z.eqb_eq. lia.
    + exists []. simpl. rewrite app_nil_r. reflexivity.
  - left. unfold synced. simpl. rewrite app_length. simpl. repeat split; lia.
Qed.

Lemma sim_ret {A} (a : A) : sim (ret a).
Proof. intros es1 es2 a2 es2' H E. injection E as <- <-. exists a, es1. auto. Qed.

Lemma sim_fail {A} e : sim (@fail A e).
Proof. intros es1 es2 a2 es2' H E. discriminate. Qed.

Lemma sim_report {A} ref m (a : A) : sim (report ref m a).
Proof.
  intros es1 es2 a2 es2' H E. injection E as <- <-.
  exists a, (add ref m es1). split; [reflexivity|].
  destruct (synced_add ref m es1 es2 H); auto.
Qed.

Lemma sim_report_fmt {A} r ref m (a : A) : sim (report_fmt r ref m a).
Proof. destruct r; [apply sim_fail|apply sim_report]. Qed.

Lemma sim_bind {A B} (m : M A) (f : A -> M B) :
  sim m -> (forall a, sim (f a)) -> (forall a, keeps (f a)) -> (forall a, halts (f a)) ->
  sim (mbind m f).
Proof.
  intros Hm Hf Hk Hh es1 es2 b2 es2'' H E. unfold mbind in *.
  destruct (m es2) as [[a2 es2']|] eqn:Em; [|discriminate].
  destruct (Hm es1 es2 a2 es2' H Em) as (a1 & es1' & -> & [[-> Hs]|Hb]).
  - exact (Hf a2 _ _ _ _ Hs E).
  - destruct (Hh a1 es1' (proj1 Hb)) as [b1 E1].
    exists b1, es1'. split; [exact E1|]. right.
    eapply behind_grown; [exact Hb|]. eapply Hk. exact E.
Qed.

Lemma sim_full {A} (a : A) (m : M A) :
  sim m -> sim (fun es => if py_full es then Ok (a, es) else m es).
Proof.
  intros Hm es1 es2 a2 es2' H E.
  destruct (synced_not_full _ _ H) as [F1 F2]. rewrite F1. rewrite F2 in E.
  eapply Hm; eassumption.
Qed.

Lemma halts_ret {A} (a : A) : halts (ret a).
Proof. intros es _. exists a. reflexivity. Qed.

Lemma halts_full {A} (a : A) (m : M A) : halts (fun es => if py_full es then Ok (a, es) else m es).
Proof. intros es F. rewrite F. eauto. Qed.

Lemma halts_report {A} ref m (a : A) : halts (report ref m a).
Proof. intros es F. unfold report. rewrite full_add by exact F. eauto. Qed.

#[global] Hint Resolve sim_ret sim_fail sim_report sim_report_fmt sim_bind sim_full
  halts_ret halts_full halts_report : keeps.

Section Py.
  Variable X : ext.
  Variable S : py_settings.
  Variable G : graph.

  (** An assignment does not touch the errors; it may raise. *)
  Definition pure_ {A} (m : M A) : Prop :=
    (exists a, forall es, m es = Ok (a, es)) \/ (exists e, forall es, m es = Raise e).

  Lemma pure_sim {A} (m : M A) : pure_ m -> sim m.
  Proof.
    intros [[a H]|[e H]] es1 es2 a2 es2' Hs E; rewrite H in E; [|discriminate].
    injection E as <- <-. exists a, es1. rewrite H. auto.
  Qed.

  Lemma pure_keeps {A} (m : M A) : pure_ m -> keeps m.
  Proof.
    intros [[a H]|[e H]] es1 a2 es2' E; rewrite H in E; [|discriminate].
    injection E as <- <-. apply grown_refl.
  Qed.

  Lemma pure_to_float z : pure_ (to_float z).
  Proof.
    unfold to_float. destruct (float_of_Z z); [left|right]; eexists; intros; reflexivity.
  Qed.

  Lemma pure_ret {A} (a : A) : pure_ (ret a).
  Proof. left. exists a. reflexivity. Qed.

  Lemma sim_check_bounds b v n assign ref :
    pure_ assign -> sim (check_bounds b v n assign ref).
  Proof.
    intros H. pose proof (pure_sim _ H) as Hs. unfold check_bounds.
    destruct (b_min b) as [m|], (b_max b) as [m'|]; auto with keeps.
    - destruct (above b n m).
      + intros es1 es2 a2 es2' HS E. cbn in *.
        destruct (below b n m'); [|revert HS E; apply sim_report].
        eapply Hs; eassumption.
      + destruct (below b n m').
        * intros es1 es2 a2 es2' HS E. unfold mbind, report in *.
          destruct H as [[a H]|[e H]]; [|rewrite H in E; discriminate].
          rewrite H in *. injection E as <- <-.
          exists a, (add ref (MExpectedBound (op_min b) m v) es1). split; [reflexivity|].
          destruct (synced_add ref (MExpectedBound (op_min b) m v) es1 es2 HS); auto.
        * apply sim_bind; auto with keeps.
    - destruct (above b n m); auto with keeps.
    - destruct (below b n m'); auto with keeps.
  Qed.

  Lemma sim_check_pattern p s x ref : sim (check_pattern X p s x ref).
  Proof.
    unfold check_pattern. destruct p; auto with keeps.
    destruct (x_re_match _ _ _); auto with keeps.
  Qed.

  Definition parser_sim (p : parser) : Prop := forall t ref, sim (p t ref) /\ keeps (p t ref).

  Lemma sim_parse_items ps t ref : Forall parser_sim ps ->
    forall i target, sim (parse_items ps t ref i target).
  Proof.
    induction 1 as [|p ps Hp Hps IH]; intros i target; simpl; [apply sim_ret|].
    apply sim_bind; [apply Hp| | |].
    - intros item. apply sim_full. apply IH.
    - intros item. apply keeps_full. apply keeps_parse_items.
      eapply Forall_impl; [|exact Hps]. intros q Hq t' ref'. apply Hq.
    - intros item. apply halts_full.
  Qed.

  Lemma sim_parse_entries ps t ref : Forall (fun kp => parser_sim (snd kp)) ps ->
    forall target, sim (parse_entries X ps t ref target).
  Proof.
    induction 1 as [|[k p] ps Hp Hps IH]; intros target; simpl; [apply sim_ret|].
    apply sim_bind; [apply Hp| | |].
    - intros item. apply sim_full. apply IH.
    - intros item. apply keeps_full. apply keeps_parse_entries.
      eapply Forall_impl; [|exact Hps]. intros q Hq t' ref'. apply Hq.
    - intros item. apply halts_full.
  Qed.

  Definition members_sim (o : members) : Prop := Forall (fun kv => parser_sim (snd (snd kv))) o.

  Lemma members_sim_keep o : members_sim o -> members_keep o.
  Proof. intros H. eapply Forall_impl; [|exact H]. intros q Hq t' ref'. apply Hq. Qed.

  Lemma sim_parse_property p o ref attrs :
    members_sim o -> sim (parse_property p o ref attrs).
  Proof.
    intros H. unfold parse_property.
    assert (H0 : sim (if p_optional p then ret attrs
                        else report ref (MMissingProperty (p_json p)) attrs)).
    { destruct (p_optional p); auto with keeps. }
    destruct (lookup (p_json p) o) as [[v q]|] eqn:E; [|exact H0].
    pose proof (members_lookup _ _ _ _ _ H E) as Hq.
    destruct v; auto; apply sim_bind; try apply Hq; auto with keeps.
  Qed.

  Lemma sim_parse_properties ps o ref : members_sim o ->
    forall attrs, sim (parse_properties ps o ref attrs).
  Proof.
    intros H. induction ps as [|p ps IH]; intros attrs; simpl; [apply sim_ret|].
    apply sim_bind; [apply sim_parse_property; exact H| | |]; intros attrs'.
    - apply sim_full. apply IH.
    - apply keeps_full. apply keeps_parse_properties. apply members_sim_keep, H.
    - apply halts_full.
  Qed.

  Lemma sim_composite_from ps v o ref attrs :
    members_sim o -> sim (composite_from ps v o ref attrs).
  Proof.
    intros H. unfold composite_from. destruct v; auto with keeps.
    apply sim_bind; [apply sim_parse_properties; exact H| | |]; intros [? ?]; auto with keeps.
  Qed.

  Lemma sim_parse_value R v : parser_sim (parse_value X S G R v).
  Proof.
    induction v as [| | | | |l IH|l IH] using jval_ind'; intros t ref;
      (split; [|apply keeps_parse_value]); destruct t;
      cbn -[float_of_Z]; unfold parse_dt, parse_array, parse_reference;
      repeat match goal with
             | |- sim (match find_embed ?g ?n with _ => _ end) => destruct (find_embed g n)
             | |- sim (match find_class ?g ?n with _ => _ end) => destruct (find_class g n)
             | |- sim (match lookup ?a ?b with _ => _ end) => destruct (lookup a b)
             | |- sim (match x_strptime ?x ?a ?b with _ => _ end) => destruct (x_strptime x a b)
             | |- sim (match x_tz ?x ?b with _ => _ end) => destruct (x_tz x b)
             | |- sim (match x_dur_from ?x ?b with _ => _ end) => destruct (x_dur_from x b)
             | |- sim (if ?b then _ else _) => destruct b
             end;
      auto using sim_check_bounds, sim_check_pattern, pure_to_float, pure_ret with keeps.
    - apply sim_bind; auto with keeps.
      apply sim_parse_items. clear -IH. induction IH; simpl; constructor; auto.
    - apply sim_bind; auto with keeps.
      apply sim_parse_entries. clear -IH. induction IH; simpl; constructor; auto.
    - apply sim_bind; auto with keeps.
      apply (sim_composite_from _ (JObj l)).
      clear -IH. unfold members_sim. induction IH; simpl; constructor; auto.
  Qed.

  Lemma members_of_sim R v : members_sim (members_of X S G R v).
  Proof.
    unfold members_sim, members_of. destruct v; try constructor.
    induction l; simpl; constructor; auto. apply sim_parse_value.
  Qed.

  Lemma sim_allocate c ref ids : forall reg heap, sim (allocate X c ref ids reg heap).
  Proof.
    induction ids as [|id ids IH]; intros reg heap; simpl; [apply sim_ret|].
    assert (Hs : sim (fun es => allocate X c ref ids (upsert id (length heap) reg)
                     (heap ++ [Instance (c_name c) id (placeholder (c_props c))]) es)).
    { intros es a es' H. eapply IH. }
    destruct (c_id_pattern c) as [p|]; [|exact Hs].
    destruct (x_re_match X p id); [exact Hs|].
    intros es1 es2 a2 es2' H E.
    set (r := slash _ _) in *. set (m := MIdMismatch p id) in *.
    assert (Hk : keeps (fun es => allocate X c ref ids (upsert id (length heap) reg)
                     (heap ++ [Instance (c_name c) id (placeholder (c_props c))]) es)).
    { intros es a es' H'. eapply keeps_allocate. exact H'. }
    destruct (synced_add r m es1 es2 H) as [HS|HB].
    - destruct (synced_not_full _ _ HS) as [F1 F2]. rewrite F1. rewrite F2 in E.
      eapply Hs; eassumption.
    - destruct HB as [F1 HB]. rewrite F1. eexists _, _. split; [reflexivity|].
      right. destruct (py_full (add r m es2)).
      + injection E as <- <-. split; assumption.
      + eapply behind_grown; [split; eassumption|]. eapply Hk. exact E.
  Qed.

  Lemma sim_preallocate cs o ref : forall R heap, sim (preallocate X cs o ref R heap).
  Proof.
    induction cs as [|c cs IH]; intros R heap; simpl; [apply sim_ret|].
    apply sim_bind.
    - destruct (lookup _ o) as [[[] ?]|]; auto with keeps.
      apply sim_bind; [apply sim_allocate| | |]; intros [? ?]; auto with keeps.
    - intros [R' heap']. apply sim_full. apply IH.
    - intros [R' heap']. apply keeps_full. apply keeps_preallocate.
    - intros [R' heap']. apply halts_full.
  Qed.

  Lemma sim_parse_instances c R reg ref l : forall heap,
    sim (parse_instances X S G c R reg ref l heap).
  Proof.
    induction l as [|[id v] l IH]; intros heap; simpl; [apply sim_ret|].
    destruct (lookup id reg) as [a|]; auto with keeps.
    destruct (nth_error heap a) as [i|]; auto with keeps.
    apply sim_bind; [apply sim_composite_from, members_of_sim| | |]; intros attrs.
    - apply sim_full. apply IH.
    - apply keeps_full. apply keeps_parse_instances.
    - apply halts_full.
  Qed.

  (** The loop over the registries is left as soon as the container is full. *)
  Lemma parse_registries_sim cs o ref R : forall heap,
    sim (parse_registries X S G cs o ref R heap).
  Proof.
    induction cs as [|c cs IH]; intros heap; simpl; [apply sim_ret|].
    destruct (lookup _ o) as [[v p]|]; auto.
    destruct v; auto with keeps.
    destruct (lookup _ R) as [reg|]; auto with keeps.
    intros es1 es2 a2 es2' H E. unfold mbind in *.
    destruct (parse_instances _ _ _ _ _ _ _ _ _ es2) as [[r2 es2m]|] eqn:E2; [|discriminate].
    destruct (sim_parse_instances c R reg ref l heap _ _ _ _ H E2)
      as (r1 & es1m & E1 & [[-> HS]|HB]); rewrite E1.
    - destruct r2 as [heap'|]; [eapply IH; eassumption|].
      injection E as <- <-. exists None, es1m. auto.
    - assert (HB' : behind es1m es2').
      { destruct r2 as [heap'|].
        - eapply behind_grown; [exact HB|]. eapply keeps_parse_registries. exact E.
        - injection E as <- <-. exact HB. }
      destruct r1 as [heap1|].
      + (* the first run was not stopped: it cannot be full *)
        exfalso. destruct HB as [F _]. revert E1 F H. clear.
        revert heap es1. induction l as [|[id v] l IHl]; intros heap es1 E1 F H.
        * injection E1 as <- <-. destruct (synced_not_full _ _ H). congruence.
        * cbn [parse_instances] in E1. destruct (lookup id reg) as [a|]; [|discriminate].
          destruct (nth_error heap a) as [i|]; [|discriminate].
          unfold mbind in E1. destruct (composite_from _ _ _ _ _ es1) as [[a1 es3]|] eqn:EC;
            [|discriminate].
          destruct (py_full es3) eqn:F3; [discriminate|].
          clear H. revert E1 F. generalize (set_attrs a a1 heap). revert F3. generalize es3.
          clear. induction l as [|[id v] l IHl]; intros es3 F3 heap E1 F.
          { injection E1 as <- <-. congruence. }
          cbn [parse_instances] in E1. destruct (lookup id reg) as [a|]; [|discriminate].
          destruct (nth_error heap a) as [i|]; [|discriminate].
          unfold mbind in E1. destruct (composite_from _ _ _ _ _ es3) as [[a1 es4]|];
            [|discriminate].
          destruct (py_full es4) eqn:F4; [discriminate|]. eapply IHl; eassumption.
      + exists None, es1m. auto.
  Qed.


  (** [Some] is only returned from a loop when the container is not full. *)
  Lemma parse_instances_open c R reg ref l : forall heap es heap' es',
    py_full es = false -> parse_instances X S G c R reg ref l heap es = Ok (Some heap', es') ->
    py_full es' = false.
  Proof.
    induction l as [|[id v] l IH]; intros heap es heap' es' F E; simpl in E.
    - injection E as <- <-. exact F.
    - destruct (lookup id reg) as [a|]; [|discriminate].
      destruct (nth_error heap a) as [i|]; [|discriminate].
      unfold mbind in E. destruct (composite_from _ _ _ _ _ es) as [[a1 es1]|]; [|discriminate].
      destruct (py_full es1) eqn:F1; [discriminate|eauto].
  Qed.

  Lemma parse_registries_open cs o ref R : forall heap es heap' es',
    py_full es = false -> parse_registries X S G cs o ref R heap es = Ok (Some heap', es') ->
    py_full es' = false.
  Proof.
    induction cs as [|c cs IH]; intros heap es heap' es' F E; simpl in E.
    - injection E as <- <-. exact F.
    - destruct (lookup _ o) as [[v p]|]; [|eauto].
      destruct v; try discriminate.
      destruct (lookup _ R) as [reg|]; [|discriminate].
      unfold mbind in E. destruct (parse_instances _ _ _ _ _ _ _ _ _ es) as [[[h|] es1]|] eqn:E1;
        try discriminate.
      apply parse_instances_open in E1; eauto.
  Qed.

  Lemma parse_properties_open ps o ref : forall attrs es attrs' es',
    py_full es = false -> parse_properties ps o ref attrs es = Ok ((false, attrs'), es') ->
    py_full es' = false.
  Proof.
    induction ps as [|p ps IH]; intros attrs es attrs' es' F E; simpl in E.
    - injection E as <- <-. exact F.
    - unfold mbind in E. destruct (parse_property _ _ _ _ es) as [[a1 es1]|]; [|discriminate].
      destruct (py_full es1) eqn:F1; [discriminate|eauto].
  Qed.

  Lemma preallocate_open cs o ref : forall R heap es r es',
    py_full es = false -> preallocate X cs o ref R heap es = Ok (Some r, es') ->
    py_full es' = false.
  Proof.
    induction cs as [|c cs IH]; intros R heap es r es' F E; simpl in E.
    - injection E as <- <-. exact F.
    - unfold mbind at 1 in E.
      match type of E with match ?x with _ => _ end = _ => destruct x as [[[R' h'] es1]|] end;
        [|discriminate].
      destruct (py_full es1) eqn:F1; [discriminate|eauto].
  Qed.

  (** Bind when the continuation is only entered with a container that is not full. *)
  Lemma sim_bind_open {A B} (m : M (option A)) (f : option A -> M (option B)) :
    sim m -> (forall a, sim (f a)) -> (forall a, keeps (f a)) ->
    (forall es a es', py_full es = false -> m es = Ok (Some a, es') -> py_full es' = false) ->
    (forall es, f None es = Ok (None, es)) ->
    sim (mbind m f).
  Proof.
    intros Hm Hf Hk Ho Hn es1 es2 b2 es2'' H E. unfold mbind in *.
    destruct (m es2) as [[a2 es2']|] eqn:Em; [|discriminate].
    destruct (Hm es1 es2 a2 es2' H Em) as (a1 & es1' & E1 & [[-> Hs]|Hb]); rewrite E1.
    - exact (Hf a2 _ _ _ _ Hs E).
    - destruct a1 as [a1|].
      + exfalso. apply Ho in E1; [|apply (synced_not_full _ _ H)].
        destruct Hb as [F _]. congruence.
      + exists None, es1'. split; [apply Hn|]. right.
        eapply behind_grown; [exact Hb|]. eapply Hk. exact E.
  Qed.

  Lemma sim_graph_from v ref : sim (graph_from X S G v ref).
  Proof.
    unfold graph_from. apply sim_full.
    destruct v; try (exact (sim_report ref _ None)).
    apply sim_bind_open.
    - apply sim_preallocate.
    - intros [[R heap]|]; [|apply sim_ret].
      intros es1 es2 a2 es2' H E.
      destruct H as (H1 & H2 & H3).
      assert (Hemp : py_empty es1 = py_empty es2) by (unfold py_empty; rewrite H1; reflexivity).
      rewrite Hemp. destruct (_ && _).
      + injection E as <- <-. exists None, es1. split; [reflexivity|]. left. repeat split; assumption.
      + revert E. assert (H : synced es1 es2) by (repeat split; assumption). clear Hemp H1 H2 H3.
        revert es1 es2 a2 es2' H. apply sim_bind_open.
        * apply parse_registries_sim.
        * intros [heap'|]; [|apply sim_ret].
          intros es1 es2 a2 es2' H E. unfold mbind in *.
          destruct (parse_properties _ _ _ _ es2) as [[[early2 attrs2] es2m]|] eqn:E2; [|discriminate].
          destruct (sim_parse_properties (g_props G) (members_of X S G R (JObj l)) ref
                      (members_of_sim R (JObj l)) (placeholder (g_props G)) _ _ _ _ H E2)
            as ([early1 attrs1] & es1m & E1 & [[Eq HS]|HB]); rewrite E1.
          -- injection Eq as -> ->. destruct early2.
             ++ injection E as <- <-. exists None, es1m. auto.
             ++ destruct HS as (H1 & H2 & H3).
                assert (Hemp : py_empty es1m = py_empty es2m)
                  by (unfold py_empty; rewrite H1; reflexivity).
                rewrite Hemp. destruct (py_empty es2m); injection E as <- <-;
                  eexists _, es1m; (split; [reflexivity|]); left; repeat split; assumption.
          -- assert (HB' : behind es1m es2').
             { destruct early2; [injection E as <- <-; exact HB|].
               destruct (py_empty es2m); injection E as <- <-; exact HB. }
             destruct early1; [exists None, es1m; auto|].
             exfalso. apply parse_properties_open in E1; [|apply (synced_not_full _ _ H)].
             destruct HB as [F _]. congruence.
        * intros [heap'|]; [|apply keeps_ret].
          apply keeps_bind; [apply keeps_parse_properties, members_of_keep|].
          intros [[] attrs]; auto with keeps.
          intros es a es' H. destruct (py_empty es); injection H as <- <-; apply grown_refl.
        * apply parse_registries_open.
        * reflexivity.
    - intros [[R heap]|]; [|apply keeps_ret].
      intros es a es' H.
      destruct (_ && _); [injection H as <- <-; apply grown_refl|].
      revert H. apply keeps_bind; [apply keeps_parse_registries|].
      clear. intros [heap'|]; auto with keeps.
      apply keeps_bind; [apply keeps_parse_properties, members_of_keep|].
      intros [[] attrs]; auto with keeps.
      intros es a es' H. destruct (py_empty es); injection H as <- <-; apply grown_refl.
    - intros es [R heap] es'. apply preallocate_open.
    - reflexivity.
  Qed.

  Lemma graph_from_prefix v ref c1 c2 r1 es1 r2 es2 :
    (0 < c1)%Z -> (c1 <= c2)%Z ->
    graph_from X S G v ref (py_errors_new c1) = Ok (r1, es1) ->
    graph_from X S G v ref (py_errors_new c2) = Ok (r2, es2) ->
    py_values es1 = firstn (Z.to_nat c1) (py_values es2).
  Proof.
    intros Hc1 Hc2 E1 E2.
    assert (H : synced (py_errors_new c1) (py_errors_new c2)).
    { unfold synced. simpl. repeat split; lia. }
    pose proof (keeps_graph_from X S G v ref _ _ _ E1) as [Hcap _]. simpl in Hcap.
    destruct (sim_graph_from v ref _ _ _ _ H E2) as (a1 & es1' & E1' & HR).
    rewrite E1 in E1'. injection E1' as <- <-.
    destruct HR as [[_ (H1 & H2 & H3)]|[F [l HB]]].
    - rewrite firstn_all2; [exact H1|]. rewrite <- H1. lia.
    - unfold py_full in F. apply Z.eqb_eq in F.
      rewrite HB, firstn_app. replace (Z.to_nat c1) with (length (py_values es1)) by lia.
      rewrite firstn_all, Nat.sub_diag. simpl. rewrite app_nil_r. reflexivity.
  Qed.

  (** Nothing but the smaller capacity can make the run with it end differently. *)
  Lemma graph_from_smaller_ok v ref c1 c2 r2 es2 :
    (0 < c1)%Z -> (c1 <= c2)%Z ->
    graph_from X S G v ref (py_errors_new c2) = Ok (r2, es2) ->
    exists r1 es1, graph_from X S G v ref (py_errors_new c1) = Ok (r1, es1) /\
      ((Z.of_nat (length (py_values es2)) < c1)%Z -> r1 = r2).
  Proof.
    intros Hc1 Hc2 E2.
    assert (H : synced (py_errors_new c1) (py_errors_new c2)).
    { unfold synced. simpl. repeat split; lia. }
    destruct (sim_graph_from v ref _ _ _ _ H E2) as (a1 & es1' & E1' & HR).
    exists a1, es1'. split; [exact E1'|]. intros HL.
    destruct HR as [[-> _]|[F [l HB]]]; [reflexivity|exfalso].
    pose proof (keeps_graph_from X S G v ref _ _ _ E1') as [Hcap _]. simpl in Hcap.
    unfold py_full in F. apply Z.eqb_eq in F. rewrite HB, app_length in HL. lia.
  Qed.
End Py.
