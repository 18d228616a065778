(** The errors of the generated Go parser are what is wrong with the document (C51). *)
From Coq Require Import String List Arith NArith ZArith Bool Lia Floats.SpecFloat Permutation.
From Verif Require Import Base M_Naming M_Errors M_Dec M_Schema M_Strftime M_Duration M_Num M_GoGen
  S_Conform S_Common S_GoGen S_Blame P_Common P_GoBase P_GoGraph P_Blame.
Import ListNotations.
Local Open Scope nat_scope.

Definition groom (es : gerrs) : Prop :=
  go_cap es = 0%N \/ (N.of_nat (length (go_values es)) < go_cap es)%N.

Lemma groom_not_full es : groom es -> go_full es = false.
Proof.
  unfold groom, go_full. intros [->|H]; [reflexivity|].
  destruct (N.eqb_spec (N.of_nat (length (go_values es))) (go_cap es)); [lia|]. apply andb_false_r.
Qed.

(** [m] reports what satisfies [P]: nothing else, and all of it if there is room. *)
Definition gexact {A} (m : GM A) (P : gerr -> Prop) : Prop :=
  forall es a es', m es = Done (a, es') ->
    ggrown es es' /\
    (forall e, In e (go_values es') -> In e (go_values es) \/ P e) /\
    (groom es' -> forall e, P e -> In e (go_values es')).

Lemma exact_iff {A} (m : GM A) (P Q : gerr -> Prop) : gexact m P -> (forall e, P e <-> Q e) -> gexact m Q.
Proof.
  intros H PQ es a es' E. destruct (H es a es' E) as (H1 & H2 & H3). split; [exact H1|]. split.
  - intros e He. rewrite <- PQ. exact (H2 e He).
  - intros R e He. apply (H3 R). rewrite PQ. exact He.
Qed.

Lemma exact_ret {A} (a : A) : gexact (gret a) (fun _ => False).
Proof. intros es b es' H. injection H as <- <-. split; [apply ggrown_refl|]. split; [auto|intros _ e []]. Qed.

Lemma exact_panic {A} x P : gexact (@gpanic A x) P.
Proof. intros es b es' H. discriminate. Qed.

Lemma exact_report {A} ref m (a : A) : gexact (greport ref m a) (fun e => gerr_ref e = ref /\ gerr_msg e = m).
Proof.
  intros es b es' H. injection H as <- <-. split; [apply ggrown_add|].
  unfold gadd, go_add, groom. destruct (_ || _) eqn:E; cbn [go_values go_cap].
  - split.
    + intros e He. apply in_app_or in He as [He|[<-|[]]]; [auto|]. right. cbn. auto.
    + intros _ [r m'] [<- <-]. apply in_or_app. right. left. reflexivity.
  - split; [auto|]. intros R. apply orb_false_iff in E as [E1 E2].
    apply N.eqb_neq in E1. apply N.ltb_ge in E2. lia.
Qed.

Lemma grown_room es es' : ggrown es es' -> groom es' -> groom es.
Proof.
  intros [E [l El]]. unfold groom. rewrite E, El, app_length. lia.
Qed.

Lemma grown_In es es' e : ggrown es es' -> In e (go_values es) -> In e (go_values es').
Proof. intros [_ [l El]] H. rewrite El. apply in_or_app. auto. Qed.

Lemma exact_bind {A B} (m : GM A) (f : A -> GM B) P Q :
  gexact m P -> (forall a, gexact (f a) Q) -> gexact (gbind m f) (fun e => P e \/ Q e).
Proof.
  intros Hm Hf es b es' H. unfold gbind in H. destruct (m es) as [[a es1]|] eqn:E; [|discriminate].
  destruct (Hm _ _ _ E) as (G1 & S1 & C1). destruct (Hf a _ _ _ H) as (G2 & S2 & C2).
  split; [eapply ggrown_trans; eassumption|]. split.
  - intros e He. apply S2 in He as [He|He]; [|auto]. apply S1 in He as [He|He]; auto.
  - intros R e [He|He]; [|exact (C2 R e He)].
    eapply grown_In; [exact G2|]. apply C1; [eapply grown_room; eassumption|exact He].
Qed.

Lemma exact_bind_ret {A B} (m : GM A) (f : A -> B) P : gexact m P -> gexact (gdo x <- m; gret (f x)) P.
Proof.
  intros H. eapply exact_iff; [apply exact_bind; [exact H|intros a; apply exact_ret]|]. cbn. tauto.
Qed.

Lemma exact_full {A} (a : A) (m : GM A) P : gexact m P ->
  gexact (fun es => if go_full es then Done (a, es) else m es) P.
Proof.
  intros Hm es b es' H. destruct (go_full es) eqn:F; [|eapply Hm; exact H].
  injection H as <- <-. split; [apply ggrown_refl|]. split; [auto|].
  intros R. apply groom_not_full in R. congruence.
Qed.

(** A part which stops the whole when it returns [None], which it does only if the errors
    are full. *)
Lemma exact_bind_opt {A B} (m : GM (option A)) (f : A -> GM (option B)) P Q :
  gexact m P -> (forall es es', m es = Done (None, es') -> go_full es' = true) ->
  (forall a, gexact (f a) Q) ->
  gexact (gbind m (fun r => match r with None => gret None | Some a => f a end)) (fun e => P e \/ Q e).
Proof.
  intros Hm Hn Hf es b es' H. unfold gbind in H. destruct (m es) as [[[a|] es1]|] eqn:E; [| |discriminate].
  - destruct (Hm _ _ _ E) as (G1 & S1 & C1). destruct (Hf a _ _ _ H) as (G2 & S2 & C2).
    split; [eapply ggrown_trans; eassumption|]. split.
    + intros e He. apply S2 in He as [He|He]; [|auto]. apply S1 in He as [He|He]; auto.
    + intros R e [He|He]; [|exact (C2 R e He)].
      eapply grown_In; [exact G2|]. apply C1; [eapply grown_room; eassumption|exact He].
  - injection H as <- <-. destruct (Hm _ _ _ E) as (G1 & S1 & C1). split; [exact G1|]. split.
    + intros e He. apply S1 in He as [He|He]; auto.
    + intros R. apply groom_not_full in R. rewrite (Hn _ _ E) in R. discriminate.
Qed.

Section Go.
  Variable X : gext.
  Variable G : graph.
  Variable order : forall A : Type, nat -> str -> list (str * A) -> list (str * A).
  Hypothesis Hord : visits_all order.
  Hypothesis Hbounds : bounds_exact G.
  Notation L := (go_rules X).
  Notation val := (goval (g_time X)).
  Notation obj := (gobj (g_time X)).

  Lemma kind_array t mn mx v : r_kind L (TArray t mn mx) v <-> exists l, v = JArr l.
  Proof. reflexivity. Qed.
  Lemma kind_map t v : r_kind L (TMap t) v <-> is_object v.
  Proof. reflexivity. Qed.
  Lemma kind_class n v : r_kind L (TClass n) v <-> is_text v.
  Proof. reflexivity. Qed.

  Section Values.
    Variable R : gregistries.
    Let known (n id : str) : Prop := exists a, gdesignates G R n id a.
    Notation gsaid := (said gerr_ref gerr_msg go_text G L known).
    Notation gone := (one gerr_ref gerr_msg go_text).

    (** *** Scalars *)

    Lemma exact_boolean v r : gexact (go_boolean X v r) (gsaid r (Value TBool v)).
    Proof.
      unfold go_boolean. destruct v;
        try (eapply exact_iff; [apply exact_report|]; intros e; symmetry;
             apply said_one with (k0 := BadKind);
             [intros r' s'; apply step_scalar; reflexivity
             |intros k; rewrite holds_bool; cbn; split; [tauto|intros ->; split; [reflexivity|intros [b H]; discriminate H]]]).
      eapply exact_iff; [apply exact_ret|]. intros e. symmetry.
      apply said_none; [intros r' s'; apply step_scalar; reflexivity|].
      intros k. rewrite holds_bool. cbn. intros [_ H]. apply H. eauto.
    Qed.

    Lemma not_text t v r : textual t = true -> scalar t = true -> ~ is_text v ->
      (forall w, r_kind L t w <-> is_text w) ->
      forall e, gerr_ref e = r /\ gerr_msg e = go_text (Value t v) BadKind <-> gsaid r (Value t v) e.
    Proof.
      intros Ht Hs N K e. symmetry. apply said_one with (k0 := BadKind).
      - intros r' s'. apply step_scalar. exact Hs.
      - intros k. rewrite holds_text by exact Ht. rewrite K. split.
        + intros [[-> _]|[-> (s & -> & _)]]; [reflexivity|]. exfalso. apply N. eexists. reflexivity.
        + intros ->. auto.
    Qed.

    Lemma bad_text t s r : textual t = true -> scalar t = true ->
      (forall w, r_kind L t w <-> is_text w) -> ~ r_leaf L t (JStr s) ->
      forall e, gerr_ref e = r /\ gerr_msg e = go_text (Value t (JStr s)) BadText <-> gsaid r (Value t (JStr s)) e.
    Proof.
      intros Ht Hs K N e. symmetry. apply said_one with (k0 := BadText).
      - intros r' s'. apply step_scalar. exact Hs.
      - intros k. rewrite holds_text by exact Ht. rewrite K. split.
        + intros [[-> H]|[-> _]]; [|reflexivity]. exfalso. apply H. eexists. reflexivity.
        + intros ->. right. eauto.
    Qed.

    Lemma good_text t s r : textual t = true -> scalar t = true ->
      (forall w, r_kind L t w <-> is_text w) -> r_leaf L t (JStr s) ->
      forall e, False <-> gsaid r (Value t (JStr s)) e.
    Proof.
      intros Ht Hs K H e. symmetry. apply said_none.
      - intros r' s'. apply step_scalar. exact Hs.
      - intros k. rewrite holds_text by exact Ht. rewrite K. intros [[_ C]|[_ (s' & [= <-] & C)]].
        + apply C. eexists. reflexivity.
        + exact (C H).
    Qed.

    Ltac text_cases v :=
      destruct v as [|?|?|?|s|?|?];
      try (eapply exact_iff; [apply exact_report|];
           match goal with |- forall e, _ <-> said _ _ _ _ _ _ ?r (Value ?t ?w) e => apply (not_text t w r) end;
           [reflexivity|reflexivity|intros [? H]; discriminate H|intros w; reflexivity]).

    Lemma exact_string t p v r : t = TStr p \/ t = TPath p ->
      gexact (go_string X p v r) (gsaid r (Value t v)).
    Proof.
      unfold go_string. intros [->| ->]; text_cases v; (destruct p as [p|]; [destruct (g_match X p s) eqn:E|]; cbn [negb]).
      - eapply exact_iff; [apply exact_ret|]. apply good_text; try reflexivity.
        cbn. exists s. split; [reflexivity|]. intros q [= <-]. exact E.
      - eapply exact_iff; [apply exact_report|]. apply (bad_text (TStr (Some p))); try reflexivity.
        cbn. intros (s' & [= <-] & H). specialize (H p eq_refl). congruence.
      - eapply exact_iff; [apply exact_ret|]. apply good_text; try reflexivity.
        cbn. exists s. split; [reflexivity|]. discriminate.
      - eapply exact_iff; [apply exact_ret|]. apply good_text; try reflexivity.
        cbn. exists s. split; [reflexivity|]. intros q [= <-]. exact E.
      - eapply exact_iff; [apply exact_report|]. apply (bad_text (TPath (Some p))); try reflexivity.
        cbn. intros (s' & [= <-] & H). specialize (H p eq_refl). congruence.
      - eapply exact_iff; [apply exact_ret|]. apply good_text; try reflexivity.
        cbn. exists s. split; [reflexivity|]. discriminate.
    Qed.

    Lemma exact_dt t f v r : t = TDate f \/ t = TTime f \/ t = TDatetime f ->
      gexact (go_date_time X f v r) (gsaid r (Value t v)).
    Proof.
      unfold go_date_time. intros [->|[->| ->]]; text_cases v; destruct (g_time_parse X (layout f) s) as [d|] eqn:E;
        try (eapply exact_iff; [apply exact_ret|]; apply good_text; try reflexivity;
             cbn; exists s, d; split; [reflexivity|exact E]).
      - eapply exact_iff; [apply exact_report|]. apply (bad_text (TDate f)); try reflexivity.
        cbn. intros (s' & d & [= <-] & H). congruence.
      - eapply exact_iff; [apply exact_report|]. apply (bad_text (TTime f)); try reflexivity.
        cbn. intros (s' & d & [= <-] & H). congruence.
      - eapply exact_iff; [apply exact_report|]. apply (bad_text (TDatetime f)); try reflexivity.
        cbn. intros (s' & d & [= <-] & H). congruence.
    Qed.

    Lemma exact_time_zone v r : gexact (go_time_zone X v r) (gsaid r (Value TTimeZone v)).
    Proof.
      unfold go_time_zone. text_cases v. destruct (g_load X s) as [z|] eqn:E.
      - eapply exact_iff; [apply exact_ret|]. apply good_text; try reflexivity.
        cbn. exists s, z. auto.
      - eapply exact_iff; [apply exact_report|]. apply (bad_text TTimeZone); try reflexivity.
        cbn. intros (s' & z & [= <-] & H). congruence.
    Qed.

    Lemma exact_duration v r : gexact (go_duration X v r) (gsaid r (Value TDuration v)).
    Proof.
      unfold go_duration. text_cases v. destruct (go_dur_from s) as [d|] eqn:E.
      - eapply exact_iff; [apply exact_ret|]. apply good_text; try reflexivity.
        cbn [r_leaf go_rules go_leaf]. exists s, d. auto.
      - eapply exact_iff; [apply exact_report|]. apply (bad_text TDuration); try reflexivity.
        cbn [r_leaf go_rules go_leaf]. intros (s' & d & [= <-] & H). congruence.
    Qed.

    (** *** Numbers *)

    Definition is_low (b : bounds) (cmp : Z -> option comparison) (m : Z) : Prop :=
      b_min b = Some m /\ over (b_exmin b) (cmp m) = false.
    Definition is_high (b : bounds) (cmp : Z -> option comparison) (m : Z) : Prop :=
      b_max b = Some m /\ under (b_exmax b) (cmp m) = false.

    Lemma own_number t b f cmp r e : bounds_of t = Some b -> scalar t = true ->
      number L t (JFloat f) ->
      (forall m, b_min b = Some m -> cmp_float_Z f m = cmp m) ->
      (forall m, b_max b = Some m -> cmp_float_Z f m = cmp m) ->
      (gsaid r (Value t (JFloat f)) e <->
       (exists m, is_low b cmp m /\ gone r (Value t (JFloat f)) (Below m) e) \/
       (exists m, is_high b cmp m /\ (forall n, ~ is_low b cmp n) /\ gone r (Value t (JFloat f)) (Above m) e)).
    Proof.
      intros Hb Hs N C1 C2. rewrite said_scalar by exact Hs. unfold own, one.
      assert (Lo : (forall n, ~ is_low b cmp n) <-> r_in L t (low b) (JFloat f)).
      { cbn. unfold is_low, float_in_range. cbn [low b_min b_max b_exmin]. split.
        - intros H. exists f. split; [reflexivity|]. split; [|discriminate]. intros m Em. apply over_f.
          rewrite C1 by exact Em. destruct (over (b_exmin b) (cmp m)) eqn:O; [reflexivity|]. destruct (H m). auto.
        - intros (f' & [= <-] & [H _]) n [En O]. specialize (H n En). apply over_f in H.
          rewrite C1 in H by exact En. congruence. }
      assert (Hi : forall m, b_max b = Some m -> (r_in L t (high b) (JFloat f) <-> under (b_exmax b) (cmp m) = true)).
      { intros m Em. cbn. unfold float_in_range. cbn [high b_min b_max b_exmax]. split.
        - intros (f' & [= <-] & [_ H]). specialize (H m Em). apply under_f in H. rewrite C2 in H by exact Em. exact H.
        - intros H. exists f. split; [reflexivity|]. split; [discriminate|]. intros m' Em'. apply under_f.
          rewrite C2 by exact Em'. congruence. }
      assert (Lo' : forall m, b_min b = Some m -> (r_in L t (low b) (JFloat f) <-> over (b_exmin b) (cmp m) = true)).
      { intros m Em. rewrite <- Lo. unfold is_low. split.
        - intros H. destruct (over (b_exmin b) (cmp m)) eqn:O; [reflexivity|]. destruct (H m). auto.
        - intros H n [En O]. congruence. }
      split.
      - intros (R0 & k & H & M). rewrite holds_number in H by exact Hb.
        destruct H as [(_ & C)|[(_ & Et & _ & C)|[(_ & Et & _ & _ & C)|[(m & -> & _ & Em & C)|(m & -> & _ & Em & C & F)]]]].
        + destruct (C (proj1 N)).
        + destruct N as [_ N]. rewrite Et in N. destruct (C (proj1 N)).
        + destruct N as [_ N]. rewrite Et in N. destruct (C (proj2 N)).
        + left. exists m. rewrite (Lo' m Em), not_true_iff_false in C. split; [split; assumption|auto].
        + right. exists m. rewrite (Hi m Em), not_true_iff_false in C. split; [split; assumption|].
          split; [|auto]. apply Lo. apply F. reflexivity.
      - intros [(m & [Em C] & R0 & M)|(m & [Em C] & F & R0 & M)]; (split; [exact R0|]); eexists; (split; [|exact M]);
          rewrite holds_number by exact Hb.
        + right. right. right. left. exists m. split; [reflexivity|]. split; [exact N|]. split; [exact Em|].
          rewrite (Lo' m Em), C. discriminate.
        + right. right. right. right. exists m. split; [reflexivity|]. split; [exact N|]. split; [exact Em|].
          split; [rewrite (Hi m Em), C; discriminate|]. intros _. apply Lo. exact F.
    Qed.

    Lemma exact_bounds t b f cmp x r : bounds_of t = Some b -> scalar t = true ->
      number L t (JFloat f) ->
      (forall m, b_min b = Some m -> cmp_float_Z f m = cmp m) ->
      (forall m, b_max b = Some m -> cmp_float_Z f m = cmp m) ->
      gexact (gcheck_bounds X b cmp x r) (gsaid r (Value t (JFloat f))).
    Proof.
      intros Hb Hs N C1 C2.
      assert (Elo : forall m, go_text (Value t (JFloat f)) (Below m) = GExpectedBound (gop_min b) m).
      { intros m. unfold go_text, symbol_min, gop_min. rewrite Hb. reflexivity. }
      assert (Ehi : forall m, go_text (Value t (JFloat f)) (Above m) = GExpectedBound (gop_max b) m).
      { intros m. unfold go_text, symbol_max, gop_max. rewrite Hb. reflexivity. }
      eapply exact_iff; [|intros e; symmetry; apply (own_number t b f cmp r e Hb Hs N C1 C2)].
      assert (Bad1 : forall m, is_low b cmp m ->
        gexact (greport r (GExpectedBound (gop_min b) m) (GZero : val)) (fun e =>
          (exists m, is_low b cmp m /\ gone r (Value t (JFloat f)) (Below m) e) \/
          (exists m, is_high b cmp m /\ (forall n, ~ is_low b cmp n) /\ gone r (Value t (JFloat f)) (Above m) e))).
      { intros m H. eapply exact_iff; [apply (exact_report (A := val))|]. intros e. unfold one. split.
        - intros HH. left. exists m. rewrite Elo. auto.
        - intros [(m' & H' & HH)|(m' & _ & F & _)]; [|destruct (F m H)].
          rewrite Elo in HH. destruct H as [E1 _], H' as [E2 _]. replace m with m' by congruence. exact HH. }
      assert (Bad2 : forall m, is_high b cmp m -> (forall n, ~ is_low b cmp n) ->
        gexact (greport r (GExpectedBound (gop_max b) m) (GZero : val)) (fun e =>
          (exists m, is_low b cmp m /\ gone r (Value t (JFloat f)) (Below m) e) \/
          (exists m, is_high b cmp m /\ (forall n, ~ is_low b cmp n) /\ gone r (Value t (JFloat f)) (Above m) e))).
      { intros m H F. eapply exact_iff; [apply (exact_report (A := val))|]. intros e. unfold one. split.
        - intros HH. right. exists m. rewrite Ehi. auto.
        - intros [(m' & H' & HH)|(m' & H' & _ & HH)]; [destruct (F m' H')|].
          rewrite Ehi in HH. destruct H as [E1 _], H' as [E2 _]. replace m with m' by congruence. exact HH. }
      assert (Good : (forall n, ~ is_low b cmp n) -> (forall n, ~ is_high b cmp n) ->
        gexact (gret x) (fun e =>
          (exists m, is_low b cmp m /\ gone r (Value t (JFloat f)) (Below m) e) \/
          (exists m, is_high b cmp m /\ (forall n, ~ is_low b cmp n) /\ gone r (Value t (JFloat f)) (Above m) e))).
      { intros F1 F2. eapply exact_iff; [apply exact_ret|]. intros e. split; [tauto|].
        intros [(m & H & _)|(m & H & _)]; [exact (F1 m H)|exact (F2 m H)]. }
      unfold gcheck_bounds, is_low, is_high in *.
      destruct (b_min b) as [m|] eqn:E1, (b_max b) as [m'|] eqn:E2.
      - destruct (over (b_exmin b) (cmp m)) eqn:O; cbn [negb]; [|apply Bad1; auto].
        assert (F1 : forall n, ~ (Some m = Some n /\ over (b_exmin b) (cmp n) = false)) by (intros n [[= <-] H]; congruence).
        destruct (under (b_exmax b) (cmp m')) eqn:U; cbn [negb]; [|apply Bad2; auto].
        apply Good; [exact F1|]. intros n [[= <-] H]. congruence.
      - destruct (over (b_exmin b) (cmp m)) eqn:O; cbn [negb]; [|apply Bad1; auto].
        apply Good; intros n [H1 H2]; congruence.
      - assert (F1 : forall n, ~ (None = Some n /\ over (b_exmin b) (cmp n) = false)) by (intros n [H _]; discriminate H).
        destruct (under (b_exmax b) (cmp m')) eqn:U; cbn [negb]; [|apply Bad2; auto].
        apply Good; [exact F1|]. intros n [[= <-] H]. congruence.
      - apply Good; intros n [H _]; discriminate H.
    Qed.

    Lemma not_number t b v r : bounds_of t = Some b -> scalar t = true -> ~ r_kind L t v ->
      forall e, gerr_ref e = r /\ gerr_msg e = go_text (Value t v) BadKind <-> gsaid r (Value t v) e.
    Proof.
      intros Hb Hs N e. symmetry. apply said_one with (k0 := BadKind).
      - intros r' s'. apply step_scalar. exact Hs.
      - intros k. rewrite holds_number by exact Hb. unfold number. split.
        + intros [(-> & _)|[(_ & _ & H & _)|[(_ & _ & H & _)|[(m & _ & [H _] & _)|(m & _ & [H _] & _)]]]];
            [reflexivity|destruct (N H)..].
        + intros ->. auto.
    Qed.

    Lemma whole_iff f : is_trunc f = true <-> r_whole L (JFloat f).
    Proof.
      cbn. split.
      - intros T. exists f. split; [reflexivity|]. destruct (is_finite f) eqn:F.
        + left. exists (trunc_Z f). apply trunc_float_is; assumption.
        + destruct f; try discriminate F; [|discriminate T]. right. eauto.
      - intros (f' & [= <-] & [(z & H)|(s & ->)]); [|reflexivity]. apply float_is_trunc in H. apply H.
    Qed.

    Lemma exact_integer b v r : gexact (go_integer X b v r) (gsaid r (Value (TInt b) v)).
    Proof.
      unfold go_integer. destruct v as [| | |f| | |];
        try (eapply exact_iff; [apply exact_report|]; eapply (not_number (TInt b)); try reflexivity;
             intros [f H]; discriminate H).
      assert (Kd : r_kind L (TInt b) (JFloat f)) by (cbn; eauto).
      destruct (is_trunc f) eqn:T; cbn [negb].
      - assert (Wh : r_whole L (JFloat f)) by (apply whole_iff; exact T).
        destruct (over false (cmp_float_Z f (2 ^ 63)) || under true (cmp_float_Z f (- 2 ^ 63))) eqn:O.
        + eapply exact_iff; [apply exact_report|]. intros e. symmetry. apply said_one with (k0 := TooLarge).
          * intros r' s'. apply step_scalar. reflexivity.
          * assert (NF : ~ r_fits L (JFloat f)).
            { intros (f' & z & [= <-] & Hz & [I1 I2]). rewrite !(float_is_cmp _ _ _ Hz) in O.
              apply orb_prop in O as [O|O]; [apply over_Z in O|apply under_Z in O]; lia. }
            intros k. rewrite (holds_number _ _ _ b) by reflexivity. unfold number. split.
            -- intros [(_ & H)|[(_ & _ & _ & H)|[(-> & _)|[(m & _ & [_ [_ H]] & _)|(m & _ & [_ [_ H]] & _)]]]];
                 [destruct (H Kd)|destruct (H Wh)|reflexivity|destruct (NF H)|destruct (NF H)].
            -- intros ->. right. right. left. auto.
        + apply orb_false_iff in O as [O1 O2].
          assert (F : is_finite f = true).
          { destruct f as [|s| |]; try reflexivity; [|discriminate]. destruct s; discriminate. }
          pose proof (trunc_float_is _ T F) as E.
          apply exact_bounds; try reflexivity; try (intros m _; apply float_is_cmp; exact E).
          split; [exact Kd|]. split; [exact Wh|]. exists f, (trunc_Z f). split; [reflexivity|]. split; [exact E|].
          rewrite (float_is_cmp _ _ _ E) in O1. rewrite (float_is_cmp _ _ _ E) in O2.
          apply not_true_iff_false in O1, O2. rewrite over_Z in O1. rewrite under_Z in O2. unfold int64. lia.
      - assert (Wh : ~ r_whole L (JFloat f)) by (rewrite <- whole_iff; congruence).
        eapply exact_iff; [apply exact_report|]. intros e. symmetry. apply said_one with (k0 := NotWhole).
        + intros r' s'. apply step_scalar. reflexivity.
        + intros k. rewrite (holds_number _ _ _ b) by reflexivity. unfold number. split.
          * intros [(_ & H)|[(-> & _)|[(_ & _ & _ & H & _)|[(m & _ & [_ [H _]] & _)|(m & _ & [_ [H _]] & _)]]]];
              [destruct (H Kd)|reflexivity|destruct (Wh H)..].
          * intros ->. right. left. auto.
    Qed.

    Lemma exact_float b v r : ty_bounds_exact (TFloat b) -> gexact (go_float X b v r) (gsaid r (Value (TFloat b) v)).
    Proof.
      intros [B1 B2]. unfold go_float. destruct v as [| | |f| | |];
        try (eapply exact_iff; [apply exact_report|]; eapply (not_number (TFloat b)); try reflexivity;
             intros [f H]; discriminate H).
      apply exact_bounds; try reflexivity.
      - split; [|exact I]. cbn. eauto.
      - intros m Hm. unfold float_cmp. rewrite representable_const by auto. reflexivity.
      - intros m Hm. unfold float_cmp. rewrite representable_const by auto. reflexivity.
    Qed.

    (** *** References *)

    Lemma exact_reference n v r : gexact (go_reference X G R n v r) (gsaid r (Value (TClass n) v)).
    Proof.
      unfold go_reference.
      destruct v; try (eapply exact_iff; [apply exact_report|]; intros e; symmetry;
        apply said_not_text; [exact kind_class|intros [? H]; discriminate H]).
      destruct (find_class G n) as [c|] eqn:Ec; [|apply exact_panic]. fold (registry R c).
      destruct (lookup s (registry R c)) as [a|] eqn:Ea.
      - eapply exact_iff; [apply exact_ret|]. intros e. symmetry. apply said_known; [exact kind_class|].
        exists a, c. auto.
      - eapply exact_iff; [apply exact_report|]. intros e. symmetry. apply said_unknown; [exact kind_class|].
        intros (a & c' & H1 & H2). rewrite Ec in H1. injection H1 as <-. congruence.
    Qed.

    (** *** Composite values *)

    Definition parses (p : gparser X) (v : jval) : Prop :=
      forall t r, ty_bounds_exact t -> gexact (p t r) (gsaid r (Value t v)).

    Lemma exact_items ps l t r : ty_bounds_exact t -> Forall2 parses ps l -> forall i,
      gexact (go_items X ps t r i)
        (fun e => exists j v, nth_error l j = Some v /\ gsaid (below_ref r (dec_nat (i + j))) (Value t v) e).
    Proof.
      intros Bt. induction 1 as [|p v ps l Hp _ IH]; intros i; cbn [go_items].
      - eapply exact_iff; [apply exact_ret|]. intros e. split; [tauto|]. intros (j & v & H & _). destruct j; discriminate H.
      - eapply exact_iff; [apply exact_bind; [apply Hp; exact Bt|intros item; apply exact_full; apply exact_bind_ret; apply IH]|].
        intros e. cbn beta. split.
        + intros [H|(j & w & Hj & H)].
          * exists 0, v. rewrite Nat.add_0_r. auto.
          * exists (Datatypes.S j), w. rewrite <- plus_n_Sm. auto.
        + intros ([|j] & w & Hj & H).
          * injection Hj as <-. rewrite Nat.add_0_r in H. auto.
          * right. exists j, w. rewrite <- plus_n_Sm in H. auto.
    Qed.

    Lemma exact_array t mn mx l ps r : ty_bounds_exact t -> Forall2 parses ps l ->
      gexact (go_array X t mn mx ps r) (gsaid r (Value (TArray t mn mx) (JArr l))).
    Proof.
      intros Bt H. unfold go_array. rewrite (Forall2_len _ _ _ H).
      destruct (match mn with Some m => (Z.of_nat (length l) <? m)%Z | None => false end) eqn:E1.
      { destruct mn as [m|]; [|discriminate E1]. apply Z.ltb_lt in E1.
        eapply exact_iff; [apply exact_report|]. intros e. symmetry.
        exact (said_small gerr_ref gerr_msg go_text G L known kind_array r t (Some m) mx l m e eq_refl E1). }
      assert (H1 : forall n, mn = Some n -> (n <= Z.of_nat (length l))%Z).
      { intros n ->. apply Z.ltb_ge in E1. exact E1. }
      destruct (match mx with Some m => (m <? Z.of_nat (length l))%Z | None => false end) eqn:E2.
      { destruct mx as [m|]; [|discriminate E2]. apply Z.ltb_lt in E2.
        eapply exact_iff; [apply exact_report|]. intros e. symmetry.
        exact (said_big gerr_ref gerr_msg go_text G L known kind_array r t mn (Some m) l m e H1 eq_refl E2). }
      assert (H2 : forall n, mx = Some n -> (Z.of_nat (length l) <= n)%Z).
      { intros n ->. apply Z.ltb_ge in E2. exact E2. }
      apply exact_bind_ret. eapply exact_iff; [apply exact_items; [exact Bt|exact H]|].
      intros e. rewrite said_items; [reflexivity|exact kind_array|split; assumption].
    Qed.

    Lemma exact_entries ps l t r : ty_bounds_exact t ->
      Forall2 (fun kp kv => fst kp = fst kv /\ parses (snd kp) (snd kv)) ps l ->
      forall target, gexact (go_entries X ps t r target)
        (fun e => exists k v, In (k, v) l /\ gsaid (below_ref r k) (Value t v) e).
    Proof.
      intros Bt. induction 1 as [|[k p] [k' v] ps l [E Hp] _ IH]; intros target; cbn [go_entries].
      - eapply exact_iff; [apply exact_ret|]. intros e. split; [tauto|]. intros (k & v & [] & _).
      - cbn in E, Hp. subst k'.
        eapply exact_iff; [apply exact_bind; [apply Hp; exact Bt|intros item; apply exact_full; apply IH]|].
        intros e. cbn beta. split.
        + intros [H|(k' & w & Hj & H)]; [exists k, v|exists k', w]; cbn; auto.
        + intros (k' & w & [Hj|Hj] & H); [injection Hj as <- <-; auto|right; eauto].
    Qed.

    Definition about (r : str) (l : list (str * jval)) (p : prop) (e : gerr) : Prop :=
      (p_optional p = false /\ lookup (p_json p) l = None /\
       gerr_ref e = r /\ gerr_msg e = GMissingProperty (p_json p)) \/
      (exists v, lookup (p_json p) l = Some v /\
         gsaid (below_ref r (p_json p)) (Value (p_type p) v) e).

    Definition parse_members (o : gmembers X) (l : list (str * jval)) : Prop :=
      forall k, match lookup k o with
                | Some p => exists v, lookup k l = Some v /\ parses p v
                | None => lookup k l = None
                end.

    Lemma exact_property p o l r fields : ty_bounds_exact (p_type p) -> parse_members o l ->
      gexact (go_property X p o r fields) (about r l p).
    Proof.
      intros Bt Hm. unfold go_property. specialize (Hm (p_json p)).
      destruct (lookup (p_json p) o) as [q|].
      - destruct Hm as (v & Hl & Hq).
        eapply exact_iff; [apply exact_bind_ret; apply Hq; exact Bt|]. intros e. unfold about. split.
        + intros H. right. exists v. auto.
        + intros [(_ & H & _)|(w & Ew & H)]; [congruence|].
          rewrite Hl in Ew. injection Ew as <-. exact H.
      - unfold about. destruct (p_optional p).
        + eapply exact_iff; [apply exact_ret|]. intros e. split; [tauto|].
          intros [(H & _)|(v & Ev & _)]; [discriminate H|]. congruence.
        + eapply exact_iff; [apply exact_report|]. intros e. split; [left; tauto|].
          intros [(_ & _ & H)|(v & Ev & _)]; [exact H|]. congruence.
    Qed.

    Lemma exact_properties o l r : parse_members o l -> forall ps fields,
      (forall p, In p ps -> ty_bounds_exact (p_type p)) ->
      gexact (go_properties X ps o r fields) (fun e => exists p, In p ps /\ about r l p e).
    Proof.
      intros Hm. induction ps as [|p ps IH]; intros fields B; cbn [go_properties].
      - eapply exact_iff; [apply exact_ret|]. intros e. split; [tauto|]. intros (p & [] & _).
      - eapply exact_iff.
        + apply exact_bind; [apply exact_property; [apply B; left; reflexivity|exact Hm]|].
          intros attrs'. apply exact_full. apply IH. intros q Hq. apply B. right. exact Hq.
        + intros e. cbn beta. split.
          * intros [H|(q & Hq & H)]; [exists p|exists q]; cbn; auto.
          * intros (q & [<-|Hq] & H); eauto.
    Qed.

    Lemma about_said r ps l e : (exists p, In p ps /\ about r l p e) <-> gsaid r (Object ps (JObj l)) e.
    Proof.
      rewrite said_object. unfold about, one. cbn [r_given go_rules go_text].
      split; intros (p & Hp & [(O & A & H)|(v & H)]); exists p; (split; [exact Hp|]);
        try (left; (split; [exact O|]); (split; [|exact H])); try (right; exists v; tauto).
      - intros x Hx. congruence.
      - destruct (lookup (p_json p) l) as [x|]; [|reflexivity]. destruct (A x eq_refl I).
    Qed.

    Lemma exact_composite ps v o r fields : In ps (composites G) -> (forall l, v = JObj l -> parse_members o l) ->
      gexact (go_composite X ps v o r fields) (gsaid r (Object ps v)).
    Proof.
      intros Hps Hm. unfold go_composite.
      assert (H : gexact (match v with
          | JObj _ => go_properties X ps o r fields
          | _ => greport r (GExpectedType (s_ "a map[string]interface{}") (gtype_of v)) fields
          end) (gsaid r (Object ps v))).
      { destruct v; try (eapply exact_iff; [apply exact_report|]; intros e; symmetry;
          apply said_not_object; intros [? H]; discriminate H).
        eapply exact_iff; [|intros e; apply about_said].
        apply exact_properties; [apply Hm; reflexivity|]. intros p Hp. exact (Hbounds ps p Hps Hp). }
      intros es a es' E. destruct (negb (go_empty es)); [discriminate E|].
      apply (H es a es'). destruct v; exact E.
    Qed.

    Lemma parse_members_of l : Forall (fun kv => parses (go_value X G order R (snd kv)) (snd kv)) l ->
      parse_members (map (fun kv => (fst kv, go_value X G order R (snd kv))) l) l.
    Proof.
      intros H k. induction H as [|[k' v] l Hv _ IH]; cbn; [reflexivity|].
      destruct (str_eqb k k'); [eauto|exact IH].
    Qed.

    Lemma embed_composite n em : find_embed G n = Some em -> In (e_props em) (composites G).
    Proof.
      intros H. apply find_some in H as [H _]. unfold composites. apply in_or_app. right. apply in_or_app. left.
      apply in_map. exact H.
    Qed.

    Lemma exact_value v : parses (go_value X G order R v) v.
    Proof.
      induction v as [| | | | |l IH|l IH] using jval_ind'; intros t r B; destruct t; cbn [go_value];
        try apply exact_boolean; try apply exact_integer; try (apply exact_float; exact B);
        try (apply exact_string; tauto);
        try apply exact_time_zone; try apply exact_duration; try apply exact_reference;
        try (apply exact_dt; tauto);
        try (eapply exact_iff; [apply exact_report|]; intros e; symmetry;
             first [apply said_not_array; [exact kind_array|discriminate]
                   |apply said_not_map; [exact kind_map|intros [? H]; discriminate H]]);
        try (destruct (find_embed G name) as [em|] eqn:F; [|apply exact_panic];
             apply exact_bind_ret; eapply exact_iff; [|intros e; symmetry; apply said_embed; exact F];
             apply exact_composite; [eapply embed_composite; exact F|]; intros l' [=]).
      - apply exact_array; [exact B|]. clear -IH. induction IH; constructor; auto.
      - apply exact_bind_ret.
        pose proof (Hord _ 0 r (map (fun kv => (fst kv, go_value X G order R (snd kv))) l)) as P.
        apply Permutation_sym, Permutation_map_inv in P as (l' & -> & P).
        eapply exact_iff; [apply exact_entries with (l := l'); [exact B|]|].
        + apply (Permutation_Forall P) in IH. clear -IH. induction IH; constructor; auto.
        + intros e. rewrite said_map by exact kind_map. split; intros (k & v & Hi & H); exists k, v; (split; [|exact H]).
          * eapply Permutation_in; [symmetry; exact P|exact Hi].
          * eapply Permutation_in; [exact P|exact Hi].
      - subst l'. apply parse_members_of. exact IH.
    Qed.
  End Values.

  (** *** The registries *)

  Notation gown known := (own gerr_ref gerr_msg go_text L known).
  Notation gsaid known := (said gerr_ref gerr_msg go_text G L known).

  Lemma exact_allocate c ref ids : forall reg heap,
    gexact (go_allocate X c ref ids reg heap)
      (fun e => gerr_ref e = gslash ref (go_key (c_plural c)) /\
         exists id p, In id ids /\ c_id_pattern c = Some p /\ g_match X p id = false /\
           gerr_msg e = GIdMismatch p id).
  Proof.
    induction ids as [|id ids IH]; intros reg heap; cbn [go_allocate].
    - eapply exact_iff; [apply exact_ret|]. intros e. split; [tauto|]. intros (_ & id & p & [] & _).
    - destruct (c_id_pattern c) as [p|] eqn:Ep; [destruct (g_match X p id) eqn:Em; cbn [negb]|].
      + eapply exact_iff; [apply IH|]. intros e. cbn beta. split; intros (Hr & id' & p' & Hi & H); (split; [exact Hr|]);
          exists id', p'.
        * split; [right; exact Hi|exact H].
        * destruct Hi as [<-|Hi]; [|auto]. destruct H as ([= <-] & H & _). congruence.
      + eapply exact_iff.
        * apply exact_bind; [apply exact_report|intros _; apply IH].
        * intros e. cbn beta. split.
          -- intros [(Hr & M)|(Hr & id' & p' & Hi & H)]; (split; [exact Hr|]).
             ++ exists id, p. cbn. auto.
             ++ exists id', p'. cbn. tauto.
          -- intros (Hr & id' & p' & [<-|Hi] & Hp & H).
             ++ injection Hp as <-. left. tauto.
             ++ right. split; [exact Hr|]. exists id', p'. auto.
      + eapply exact_iff; [apply IH|]. intros e. cbn beta. split; intros (Hr & id' & p' & Hi & H & _); discriminate H.
  Qed.

  Definition about_registry (known : str -> str -> Prop) (r : str) (l : list (str * jval)) (cs : list cls) (e : gerr) : Prop :=
    exists c x, In c cs /\ lookup (go_cls_key c) l = Some x /\
      gown known (below_ref r (go_cls_key c)) (Registry c x) e.

  Lemma exact_preallocate kn l r cs : forall R heap,
    gexact (go_preallocate X order cs l r R heap) (about_registry kn r l cs).
  Proof.
    induction cs as [|c cs IH]; intros R heap; cbn [go_preallocate].
    - eapply exact_iff; [apply exact_ret|]. intros e. split; [tauto|]. intros (c & x & [] & _).
    - apply exact_iff with (P := fun e =>
        (exists x, lookup (go_cls_key c) l = Some x /\
           gown kn (below_ref r (go_cls_key c)) (Registry c x) e) \/ about_registry kn r l cs e).
      + apply exact_bind; [|intros []; apply IH].
        fold (go_cls_key c). destruct (lookup (go_cls_key c) l) as [x|] eqn:E.
        * assert (Bad : ~ is_object x ->
            forall e, (gerr_ref e = gslash r (go_cls_key c) /\ gerr_msg e = GExpectedType (s_ "a map[string]interface{}") (gtype_of x)) <->
              exists x0, Some x = Some x0 /\ gown kn (below_ref r (go_cls_key c)) (Registry c x0) e).
          { intros N1 e. split.
            - intros [Hr M]. exists x. split; [reflexivity|]. apply own_registry. split; [exact Hr|].
              left. split; [exact N1|exact M].
            - intros (x0 & [= <-] & H). apply own_registry in H as [Hr [[_ M]|(m & ? & ? & -> & _)]].
              + split; [exact Hr|exact M].
              + destruct N1. eexists. reflexivity. }
          destruct x as [| | | | | |m];
            try (eapply exact_iff; [apply exact_report|apply Bad; intros [? HH]; discriminate HH]).
          eapply exact_iff.
          -- apply exact_bind; [apply exact_allocate|]. intros []. apply exact_ret.
          -- pose proof (Permutation_keys _ _ (Hord _ 1 (gslash r (go_cls_key c)) m)) as Pm.
             intros e. cbn beta. split.
             ++ intros [(Hr & id & p & Hi & Hp & Hm & M)|[]]. exists (JObj m). split; [reflexivity|].
                apply own_registry. split; [exact Hr|]. right. exists m, id, p.
                split; [reflexivity|]. split; [eapply Permutation_in; [symmetry; exact Pm|exact Hi]|].
                split; [exact Hp|]. split; [|exact M].
                cbn. unfold go_id_ok. congruence.
             ++ intros (x & [= <-] & H). left. apply own_registry in H as [Hr [[N _]|(m' & id & p & [= <-] & Hi & Hp & N & M)]].
                ** destruct N. eexists. reflexivity.
                ** split; [exact Hr|]. exists id, p. split; [eapply Permutation_in; [exact Pm|exact Hi]|].
                   split; [exact Hp|]. split; [|exact M].
                   apply not_true_iff_false. exact N.
        * eapply exact_iff; [apply exact_ret|]. intros e. split; [tauto|]. intros (x & H & _). discriminate H.
      + intros e. unfold about_registry. split.
        * intros [(x & H)|(c' & x & Hc & H)]; [exists c, x|exists c', x]; cbn; tauto.
        * intros (c' & x & [<-|Hc] & H); [left; eauto|right; eauto].
  Qed.

  Section Second.
    Variable R : gregistries.
    Let known (n id : str) : Prop := exists a, gdesignates G R n id a.

    Lemma members_of_parse l : parse_members R (gmembers_of X G order R (JObj l)) l.
    Proof. apply parse_members_of. apply Forall_forall. intros kv _. apply exact_value. Qed.

    Lemma exact_instances c reg ref m : In c (g_classes G) -> forall heap,
      gexact (go_instances X G order c R reg ref m heap)
        (fun e => exists id v, In (id, v) m /\
           gsaid known (below_ref (below_ref ref (go_cls_key c)) id) (Object (c_props c) v) e).
    Proof.
      intros Hc. induction m as [|[id v] m IH]; intros heap; cbn [go_instances].
      - eapply exact_iff; [apply exact_ret|]. intros e. split; [tauto|]. intros (id & v & [] & _).
      - destruct (lookup id reg) as [a|]; [|apply exact_panic].
        destruct (nth_error heap a) as [i|]; [|apply exact_panic].
        eapply exact_iff.
        + apply exact_bind; [apply (exact_composite R)|intros fields; apply exact_full; apply IH].
          * apply class_composite. exact Hc.
          * intros l ->. apply members_of_parse.
        + intros e. cbn beta. split.
          * intros [H|(id' & v' & Hi & H)]; [exists id, v|exists id', v']; cbn; auto.
          * intros (id' & v' & [Hi|Hi] & H); [injection Hi as <- <-; auto|right; eauto].
    Qed.

    Definition about_instance (r : str) (l : list (str * jval)) (cs : list cls) (e : gerr) : Prop :=
      exists c m id v, In c cs /\ lookup (go_cls_key c) l = Some (JObj m) /\ In (id, v) m /\
        gsaid known (below_ref (below_ref r (go_cls_key c)) id) (Object (c_props c) v) e.

    Lemma registries_early l r cs : forall heap es es',
      go_registries X G order cs l r R heap es = Done (None, es') -> go_full es' = true.
    Proof.
      induction cs as [|c cs IH]; intros heap es es' H; cbn [go_registries] in H; [discriminate H|].
      unfold gbind in H. match type of H with match ?m with _ => _ end = _ => destruct m as [[h es1]|] end; [|discriminate H].
      destruct (go_full es1) eqn:F; [injection H as <-; exact F|eauto].
    Qed.

    Lemma exact_registries l r cs : incl cs (g_classes G) -> forall heap,
      gexact (go_registries X G order cs l r R heap) (about_instance r l cs).
    Proof.
      induction cs as [|c cs IH]; intros Inc heap; cbn [go_registries].
      - eapply exact_iff; [apply exact_ret|]. intros e. split; [tauto|]. intros (c & m & id & v & [] & _).
      - fold (go_cls_key c).
        assert (Inc' : incl cs (g_classes G)) by (intros d Hd; apply Inc; right; exact Hd).
        apply exact_iff with (P := fun e =>
          (exists m id v, lookup (go_cls_key c) l = Some (JObj m) /\ In (id, v) m /\
             gsaid known (below_ref (below_ref r (go_cls_key c)) id) (Object (c_props c) v) e) \/
          about_instance r l cs e).
        + apply exact_bind; [|intros heap'; apply exact_full; apply IH; exact Inc'].
          destruct (lookup (go_cls_key c) l) as [x|] eqn:E.
          2:{ eapply exact_iff; [apply exact_ret|]. intros e. split; [tauto|]. intros (? & ? & ? & H & _). discriminate H. }
          destruct x as [| | | | | |m];
            try (eapply exact_iff; [apply exact_ret|]; intros e; split; [tauto|]; intros (? & ? & ? & H & _); discriminate H).
          eapply exact_iff; [apply exact_instances; apply Inc; left; reflexivity|].
          pose proof (Hord _ 2 (gslash r (go_cls_key c)) m) as Pm.
          intros e. split.
          * intros (id & v & Hi & H). exists m, id, v. split; [reflexivity|]. split; [|exact H].
            eapply Permutation_in; [symmetry; exact Pm|exact Hi].
          * intros (m' & id & v & [= <-] & Hi & H). exists id, v. split; [|exact H].
            eapply Permutation_in; [exact Pm|exact Hi].
        + intros e. unfold about_instance. split.
          * intros [(m & id & v & H)|(c' & m & id & v & Hc & H)].
            -- exists c, m, id, v. cbn. tauto.
            -- exists c', m, id, v. cbn. tauto.
          * intros (c' & m & id & v & [<-|Hc] & H); [left; exists m, id, v; exact H|].
            right. exists c', m, id, v. auto.
    Qed.
  End Second.

  Lemma said_mono (k1 k2 : str -> str -> Prop) r s e : (forall n id, k1 n id <-> k2 n id) ->
    gsaid k1 r s e -> gsaid k2 r s e.
  Proof.
    intros H (s' & k & [W Hk] & M). exists s', k. split; [|exact M]. split; [exact W|].
    destruct s' as [v|c v|ps v|t v], k; cbn in Hk |- *; auto. rewrite <- H. exact Hk.
  Qed.

  Hypothesis Hfields : fields_distinct G.

  Notation gtells := (tells gerr_ref gerr_msg go_text G L).
  Notation gtells_registry := (tells_registry gerr_ref gerr_msg go_text G L).

  Lemma graph_from_errors w ref cap a es' :
    json_wf w ->
    go_graph_from X G order w ref (empty_errs cap) = Done (a, es') ->
    (forall e, In e (go_values es') -> gtells ref w e) /\
    (groom es' ->
       (forall e, gtells_registry ref w e -> In e (go_values es')) /\
       ((exists e, gtells_registry ref w e) -> forall e, In e (go_values es') -> gtells_registry ref w e) /\
       ((forall e, ~ gtells_registry ref w e) -> forall e, gtells ref w e -> In e (go_values es'))).
  Proof.
    intros W H.
    unfold go_graph_from in H. cbn [go_empty go_errors_new go_values length N.of_nat N.eqb negb] in H.
    set (kn := listed_in G L w).
    assert (Tell : forall e, gtells ref w e <-> gsaid kn ref (Whole w) e) by reflexivity.
    assert (TellR : forall e, gtells_registry ref w e <->
      exists l c x, w = JObj l /\ In c (g_classes G) /\ lookup (go_cls_key c) l = Some x /\ True /\
        gown kn (below_ref ref (go_cls_key c)) (Registry c x) e).
    { intros e. apply said_registries. }
    assert (Incl : forall e, gtells_registry ref w e -> gtells ref w e).
    { intros e (s & k & _ & HH). exists s, k. exact HH. }
    (* Not an object. *)
    assert (Bad : ~ is_object w -> greport ref (GExpectedType (s_ "a map[string]interface{}") (gtype_of w)) None (empty_errs cap) = Done (a, es') ->
      (forall e, In e (go_values es') -> gtells ref w e) /\
      (groom es' ->
         (forall e, gtells_registry ref w e -> In e (go_values es')) /\
         ((exists e, gtells_registry ref w e) -> forall e, In e (go_values es') -> gtells_registry ref w e) /\
         ((forall e, ~ gtells_registry ref w e) -> forall e, gtells ref w e -> In e (go_values es')))).
    { intros N Eq. destruct (exact_report ref (GExpectedType (s_ "a map[string]interface{}") (gtype_of w)) (@None (gograph (g_time X))) _ a es' Eq)
        as (_ & S1 & C1).
      assert (K : forall e, gsaid kn ref (Whole w) e <->
        gerr_ref e = ref /\ gerr_msg e = GExpectedType (s_ "a map[string]interface{}") (gtype_of w)).
      { intros e. rewrite said_whole, said_not_object by exact N. split.
        - intros [HH|(l & c & x & -> & _)]; [exact HH|]. destruct N. eexists. reflexivity.
        - intros HH. left. exact HH. }
      assert (NR : forall e, ~ gtells_registry ref w e).
      { intros e HH. apply TellR in HH as (l & ? & ? & -> & _). apply N. eexists. reflexivity. }
      split; [|intros Rm; split; [|split]].
      - intros e He. apply Tell, K. apply S1 in He as [[]|He]. exact He.
      - intros e HH. destruct (NR e HH).
      - intros [e HH]. destruct (NR e HH).
      - intros _ e HH. apply C1; [exact Rm|]. apply K. exact HH. }
    destruct w as [| | | | | |l]; try (apply Bad; [intros [? HH]; discriminate HH|exact H]). clear Bad.
    unfold gbind at 1 in H.
    destruct (go_preallocate X order (g_classes G) l ref [] [] (empty_errs cap)) as [[[R heap] es1]|] eqn:P; [|discriminate H].
    destruct (exact_preallocate kn _ _ _ _ _ _ _ _ P) as (G1 & S1 & C1).
    assert (AR : forall e, about_registry kn ref l (g_classes G) e <-> gtells_registry ref (JObj l) e).
    { intros e. rewrite TellR. unfold about_registry. split.
      - intros (c & x & HH). exists l, c, x. tauto.
      - intros (l' & c & x & [= <-] & HH). exists c, x. tauto. }
    destruct (_ && _) eqn:B in H.
    { injection H as <- <-. apply andb_prop in B as [_ B].
      split; [|intros Rm; split; [|split]].
      - intros e He. apply Incl, AR. apply S1 in He as [[]|He]. exact He.
      - intros e HH. apply (C1 Rm). apply AR. exact HH.
      - intros _ e He. apply AR. apply S1 in He as [[]|He]. exact He.
      - intros NR. exfalso. unfold go_empty in B.
        destruct (go_values es1) as [|e0 l0] eqn:V; [discriminate B|].
        destruct (S1 e0 (or_introl eq_refl)) as [[]|HH]. apply (NR e0). apply AR. exact HH. }
    assert (E1 : es1 = empty_errs cap).
    { destruct G1 as [Ec _]. cbn in Ec. rewrite <- Ec. apply empty_iff. destruct (g_classes G) as [|c cs].
      - injection P as _ _ <-. reflexivity.
      - cbn [andb] in B. apply negb_false_iff in B. exact B. }
    subst es1.
    apply (preallocate_sound X order Hord cap l ref W (g_classes G) [] [] []) in P;
      [|exact (proj2 Hfields)|apply inv_init]. cbn [app] in P.
    assert (Kn : forall n id, (exists a, gdesignates G R n id a) <-> kn n id).
    { intros n id. rewrite (known_listed X G l R heap P n id). unfold kn, listed_in. split.
      - intros HH. exists l. auto.
      - intros (l' & [= <-] & HH). exact HH. }
    assert (Re : groom (empty_errs cap)) by (unfold groom; cbn; lia).
    assert (NR : forall e, ~ gtells_registry ref (JObj l) e).
    { intros e HH. apply AR in HH. exact (C1 Re e HH). }
    assert (F : gexact (gdo r <- go_registries X G order (g_classes G) l ref R heap;
                match r with
                | None => gret None
                | Some heap' =>
                    gdo fields <- go_properties X (g_props G) (gmembers_of X G order R (JObj l)) ref (zero_fields X (g_props G));
                    gret (Some (GoGraph fields R heap'))
                end) (fun e => about_instance R ref l (g_classes G) e \/
                  gsaid (fun n id => exists a, gdesignates G R n id a) ref (Object (g_props G) (JObj l)) e)).
    { apply exact_bind_opt; [apply exact_registries; apply incl_refl|apply registries_early|].
      intros heap'. eapply exact_iff.
      - apply exact_bind_ret. apply (exact_properties R); [apply members_of_parse|].
        intros p Hp. apply (Hbounds (g_props G)); [|exact Hp].
        unfold composites. rewrite !in_app_iff. right. right. left. reflexivity.
      - intros e. apply (about_said R). }
    destruct (F _ _ _ H) as (_ & S2 & C2).
    assert (All : forall e, (about_instance R ref l (g_classes G) e \/
                  gsaid (fun n id => exists a, gdesignates G R n id a) ref (Object (g_props G) (JObj l)) e) <-> gtells ref (JObj l) e).
    { intros e. rewrite Tell, said_whole. split.
      - intros [(c & m & id & v & Hc & El & Hi & HH)|HH].
        + right. exists l, c, (JObj m). split; [reflexivity|]. split; [exact Hc|]. split; [exact El|]. split; [exact I|].
          rewrite said_registry. right. exists m, id, v. split; [reflexivity|]. split; [exact Hi|].
          eapply said_mono; [exact Kn|exact HH].
        + left. eapply said_mono; [exact Kn|exact HH].
      - intros [HH|(l' & c & x & [= <-] & Hc & El & Gx & HH)].
        + right. eapply said_mono; [|exact HH]. intros n id. symmetry. apply Kn.
        + left. rewrite said_registry in HH. destruct HH as [HH|(m & id & v & -> & Hi & HH)].
          * exfalso. apply (NR e). apply TellR. exists l, c, x. auto.
          * exists c, m, id, v. split; [exact Hc|]. split; [exact El|]. split; [exact Hi|].
            eapply said_mono; [|exact HH]. intros n id'. symmetry. apply Kn. }
    split; [|intros Rm; split; [|split]].
    - intros e He. apply All. apply S2 in He as [[]|He]. exact He.
    - intros e HH. destruct (NR e HH).
    - intros [e HH]. destruct (NR e HH).
    - intros _ e HH. apply (C2 Rm). apply All. exact HH.
  Qed.
End Go.
