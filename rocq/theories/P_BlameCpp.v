(** The errors of the generated C++ parser are what is wrong with the document (C51). *)
From Coq Require Import String List Arith NArith ZArith Bool Lia Floats.SpecFloat Permutation.
From Verif Require Import Base M_Naming M_Errors M_Dec M_Schema M_Duration M_Num M_CppTime M_CppGen
  S_Conform S_Common S_CppGen S_Blame P_Common P_CppTime P_CppBase P_CppParse P_CppGraph P_Blame.
Import ListNotations.
Local Open Scope nat_scope.

Definition croom (es : cerrs) : Prop := (N.of_nat (length (cpp_values es)) < cpp_cap es)%N.

Lemma croom_not_full es : croom es -> cpp_full es = false.
Proof. unfold croom, cpp_full. intros H. apply N.eqb_neq. lia. Qed.

(** [m] reports what satisfies [P]: nothing else, and all of it if there is room. *)
Definition cexact {A} (m : CM A) (P : cerr -> Prop) : Prop :=
  forall es a es', m es = CDone (a, es') ->
    cgrown es es' /\
    (forall e, In e (cpp_values es') -> In e (cpp_values es) \/ P e) /\
    (croom es' -> forall e, P e -> In e (cpp_values es')).

Lemma exact_iff {A} (m : CM A) (P Q : cerr -> Prop) : cexact m P -> (forall e, P e <-> Q e) -> cexact m Q.
Proof.
  intros H PQ es a es' E. destruct (H es a es' E) as (H1 & H2 & H3). split; [exact H1|]. split.
  - intros e He. rewrite <- PQ. exact (H2 e He).
  - intros R e He. apply (H3 R). rewrite PQ. exact He.
Qed.

Lemma exact_ret {A} (a : A) : cexact (cret a) (fun _ => False).
Proof. intros es b es' H. injection H as <- <-. split; [apply cgrown_refl|]. split; [auto|intros _ e []]. Qed.

Lemma exact_panic {A} x P : cexact (@cthrow A x) P.
Proof. intros es b es' H. discriminate. Qed.

Lemma exact_report {A} ref m (a : A) : cexact (creport ref m a) (fun e => cerr_ref e = ref /\ cerr_msg e = m).
Proof.
  intros es b es' H. injection H as <- <-. split; [apply cgrown_add|].
  unfold cadd, cpp_add, croom. destruct (N.ltb_spec (N.of_nat (length (cpp_values es))) (cpp_cap es)) as [E|E]; cbn [cpp_values cpp_cap].
  - split.
    + intros e He. apply in_app_or in He as [He|[<-|[]]]; [auto|]. right. cbn. auto.
    + intros _ [r m'] [<- <-]. apply in_or_app. right. left. reflexivity.
  - split; [auto|]. intros R. lia.
Qed.

Lemma grown_room es es' : cgrown es es' -> croom es' -> croom es.
Proof.
  intros (E & [l El] & _). unfold croom. rewrite E, El, app_length. lia.
Qed.

Lemma grown_In es es' e : cgrown es es' -> In e (cpp_values es) -> In e (cpp_values es').
Proof. intros (_ & [l El] & _) H. rewrite El. apply in_or_app. auto. Qed.

Lemma exact_bind {A B} (m : CM A) (f : A -> CM B) P Q :
  cexact m P -> (forall a, cexact (f a) Q) -> cexact (cbind m f) (fun e => P e \/ Q e).
Proof.
  intros Hm Hf es b es' H. unfold cbind in H. destruct (m es) as [[a es1]|] eqn:E; [|discriminate].
  destruct (Hm _ _ _ E) as (G1 & S1 & C1). destruct (Hf a _ _ _ H) as (G2 & S2 & C2).
  split; [eapply cgrown_trans; eassumption|]. split.
  - intros e He. apply S2 in He as [He|He]; [|auto]. apply S1 in He as [He|He]; auto.
  - intros R e [He|He]; [|exact (C2 R e He)].
    eapply grown_In; [exact G2|]. apply C1; [eapply grown_room; eassumption|exact He].
Qed.

Lemma exact_bind_ret {A B} (m : CM A) (f : A -> B) P : cexact m P -> cexact (cdo x <- m; cret (f x)) P.
Proof.
  intros H. eapply exact_iff; [apply exact_bind; [exact H|intros a; apply exact_ret]|]. cbn. tauto.
Qed.

Lemma exact_full {A} (a : A) (m : CM A) P : cexact m P ->
  cexact (fun es => if cpp_full es then CDone (a, es) else m es) P.
Proof.
  intros Hm es b es' H. destruct (cpp_full es) eqn:F; [|eapply Hm; exact H].
  injection H as <- <-. split; [apply cgrown_refl|]. split; [auto|].
  intros R. apply croom_not_full in R. congruence.
Qed.

(** A part which stops the whole when it returns [None], which it does only if the errors
    are full. *)
Lemma exact_bind_opt {A B} (m : CM (option A)) (f : A -> CM (option B)) P Q :
  cexact m P -> (forall es es', m es = CDone (None, es') -> cpp_full es' = true) ->
  (forall a, cexact (f a) Q) ->
  cexact (cbind m (fun r => match r with None => cret None | Some a => f a end)) (fun e => P e \/ Q e).
Proof.
  intros Hm Hn Hf es b es' H. unfold cbind in H. destruct (m es) as [[[a|] es1]|] eqn:E; [| |discriminate].
  - destruct (Hm _ _ _ E) as (G1 & S1 & C1). destruct (Hf a _ _ _ H) as (G2 & S2 & C2).
    split; [eapply cgrown_trans; eassumption|]. split.
    + intros e He. apply S2 in He as [He|He]; [|auto]. apply S1 in He as [He|He]; auto.
    + intros R e [He|He]; [|exact (C2 R e He)].
      eapply grown_In; [exact G2|]. apply C1; [eapply grown_room; eassumption|exact He].
  - injection H as <- <-. destruct (Hm _ _ _ E) as (G1 & S1 & C1). split; [exact G1|]. split.
    + intros e He. apply S1 in He as [He|He]; auto.
    + intros R. apply croom_not_full in R. rewrite (Hn _ _ E) in R. discriminate.
Qed.

Section Cpp.
  Variable X : cext.
  Variable G : graph.
  Variable order : forall A : Type, nat -> str -> list (str * A) -> list (str * A).
  Hypothesis Hord : visits_all order.
  Hypothesis Hbounds : bounds_exact G.
  Notation L := (cpp_rules X).
  Notation val := (cval (cx_time X)).
  Notation obj := (cobj (cx_time X)).

  Lemma kind_array t mn mx v : r_kind L (TArray t mn mx) v <-> exists l, v = JArr l.
  Proof. reflexivity. Qed.
  Lemma kind_map t v : r_kind L (TMap t) v <-> is_object v.
  Proof. reflexivity. Qed.
  Lemma kind_class n v : r_kind L (TClass n) v <-> is_text v.
  Proof. reflexivity. Qed.

  Section Values.
    Variable R : cregistries.
    Let known (n id : str) : Prop := exists a, cdesignates G R n id a.
    Notation csaid := (said cerr_ref cerr_msg cpp_text G L known).
    Notation cone := (one cerr_ref cerr_msg cpp_text).

    (** *** Scalars *)

    Lemma exact_boolean v r : cexact (cpp_boolean X v r) (csaid r (Value TBool v)).
    Proof.
      unfold cpp_boolean. destruct v;
        try (eapply exact_iff; [apply exact_report|]; intros e; symmetry;
             apply said_one with (k0 := BadKind);
             [intros r' s'; apply step_scalar; reflexivity
             |intros k; rewrite holds_bool; cbn; split; [tauto|intros ->; split; [reflexivity|intros [b H]; discriminate H]]]).
      eapply exact_iff; [apply exact_ret|]. intros e. symmetry.
      apply said_none; [intros r' s'; apply step_scalar; reflexivity|].
      intros k. rewrite holds_bool. cbn. intros [_ H]. apply H. eauto.
    Qed.

    Lemma not_text t v r : textual t = true -> scalar t = true -> ~ is_text v ->
      (forall w, r_kind L t w <-> is_text w) ->
      forall e, cerr_ref e = r /\ cerr_msg e = cpp_text (Value t v) BadKind <-> csaid r (Value t v) e.
    Proof.
      intros Ht Hs N K e. symmetry. apply said_one with (k0 := BadKind).
      - intros r' s'. apply step_scalar. exact Hs.
      - intros k. rewrite holds_text by exact Ht. rewrite K. split.
        + intros [[-> _]|[-> (s & -> & _)]]; [reflexivity|]. exfalso. apply N. eexists. reflexivity.
        + intros ->. auto.
    Qed.

    Lemma bad_text t s r : textual t = true -> scalar t = true ->
      (forall w, r_kind L t w <-> is_text w) -> ~ r_leaf L t (JStr s) ->
      forall e, cerr_ref e = r /\ cerr_msg e = cpp_text (Value t (JStr s)) BadText <-> csaid r (Value t (JStr s)) e.
    Proof.
      intros Ht Hs K N e. symmetry. apply said_one with (k0 := BadText).
      - intros r' s'. apply step_scalar. exact Hs.
      - intros k. rewrite holds_text by exact Ht. rewrite K. split.
        + intros [[-> H]|[-> _]]; [|reflexivity]. exfalso. apply H. eexists. reflexivity.
        + intros ->. right. eauto.
    Qed.

    Lemma good_text t s r : textual t = true -> scalar t = true ->
      (forall w, r_kind L t w <-> is_text w) -> r_leaf L t (JStr s) ->
      forall e, False <-> csaid r (Value t (JStr s)) e.
    Proof.
      intros Ht Hs K H e. symmetry. apply said_none.
      - intros r' s'. apply step_scalar. exact Hs.
      - intros k. rewrite holds_text by exact Ht. rewrite K. intros [[_ C]|[_ (s' & [= <-] & C)]].
        + apply C. eexists. reflexivity.
        + exact (C H).
    Qed.

    Ltac text_cases v :=
      destruct v as [|?|?|?|s|?|?];
      try (eapply exact_iff; [apply exact_report|];
           match goal with |- forall e, _ <-> said _ _ _ _ _ _ ?r (Value ?t ?w) e => apply (not_text t w r) end;
           [reflexivity|reflexivity|intros [? H]; discriminate H|intros w; reflexivity]).

    Lemma exact_string t p v r : t = TStr p \/ t = TPath p ->
      cexact (cpp_string X p v r) (csaid r (Value t v)).
    Proof.
      unfold cpp_string. intros [->| ->]; text_cases v; (destruct p as [p|]; [destruct (cx_match X p s) eqn:E|]; cbn [negb]).
      - eapply exact_iff; [apply exact_ret|]. apply good_text; try reflexivity.
        cbn. exists s. split; [reflexivity|]. intros q [= <-]. exact E.
      - eapply exact_iff; [apply exact_report|]. apply (bad_text (TStr (Some p))); try reflexivity.
        cbn. intros (s' & [= <-] & H). specialize (H p eq_refl). congruence.
      - eapply exact_iff; [apply exact_ret|]. apply good_text; try reflexivity.
        cbn. exists s. split; [reflexivity|]. discriminate.
      - eapply exact_iff; [apply exact_ret|]. apply good_text; try reflexivity.
        cbn. exists s. split; [reflexivity|]. intros q [= <-]. exact E.
      - eapply exact_iff; [apply exact_report|]. apply (bad_text (TPath (Some p))); try reflexivity.
        cbn. intros (s' & [= <-] & H). specialize (H p eq_refl). congruence.
      - eapply exact_iff; [apply exact_ret|]. apply good_text; try reflexivity.
        cbn. exists s. split; [reflexivity|]. discriminate.
    Qed.

    Lemma exact_dt t k f v r : t = TDate f /\ k = KDate \/ t = TTime f /\ k = KTime \/ t = TDatetime f /\ k = KDatetime ->
      cexact (cpp_date_time X k f v r) (csaid r (Value t v)).
    Proof.
      intros Ht.
      assert (T : textual t = true /\ scalar t = true /\ (forall w, r_kind L t w <-> is_text w) /\
        (forall w, r_leaf L t w <-> exists s d, w = JStr s /\ time_text X k f s d) /\
        (forall w, cpp_text (Value t w) BadKind = CExpectedType (s_ "a string") (ctype_of w)) /\
        (forall s, cpp_text (Value t (JStr s)) BadText = CExpectedFormat f s)).
      { destruct Ht as [[-> ->]|[[-> ->]|[-> ->]]]; repeat (split; [intros; reflexivity|]); intros; reflexivity. }
      clear Ht. destruct T as (T1 & T2 & T3 & T4 & T5 & T6).
      assert (Ok : forall s d, v = JStr s -> time_text X k f s d -> forall x : val, cexact (cret x) (csaid r (Value t v))).
      { intros s d -> Hd x. eapply exact_iff; [apply exact_ret|]. apply good_text; try assumption. apply T4. eauto. }
      assert (Bad : forall s, v = JStr s -> (forall d, ~ time_text X k f s d) ->
        cexact (creport r (CExpectedFormat f s) (CZero : val)) (csaid r (Value t v))).
      { intros s -> N. eapply exact_iff; [apply exact_report|]. rewrite <- T6. apply bad_text; try assumption.
        rewrite T4. intros (s' & d & [= <-] & Hd). exact (N d Hd). }
      unfold cpp_date_time. destruct v as [|?|?|?|s|?|?];
        try (eapply exact_iff; [apply exact_report|]; rewrite <- T5; apply not_text; try assumption;
             intros [? H]; discriminate H).
      unfold time_text in Ok, Bad. destruct (cx_date_h X).
      - destruct (cx_date_parse X k f s) as [[d rest]|] eqn:E.
        + apply (Ok s d); [reflexivity|]. exists rest. exact E.
        + apply Bad; [reflexivity|]. intros d [rest H]. congruence.
      - destruct (cx_strptime X f (c_str s)) as [[d [|a rest]]|] eqn:E.
        + apply (Ok s d); [reflexivity|]. exists (c_str s). split; [apply up_to_nul_c_str; reflexivity|exact E].
        + apply Bad; [reflexivity|]. intros d' (s' & Hs & H). apply up_to_nul_c_str in Hs. congruence.
        + apply Bad; [reflexivity|]. intros d' (s' & Hs & H). apply up_to_nul_c_str in Hs. congruence.
    Qed.

    Lemma exact_time_zone v r : cexact (cpp_time_zone X v r) (csaid r (Value TTimeZone v)).
    Proof.
      unfold cpp_time_zone. text_cases v. destruct (cx_date_h X) eqn:D; [destruct (cx_locate X s) as [z|] eqn:E|].
      - eapply exact_iff; [apply exact_ret|]. apply good_text; try reflexivity.
        cbn. exists s, z. unfold zone_text. rewrite D. auto.
      - eapply exact_iff; [apply exact_report|]. apply (bad_text TTimeZone); try reflexivity.
        cbn. unfold zone_text. rewrite D. intros (s' & z & [= <-] & H). congruence.
      - eapply exact_iff; [apply exact_ret|]. apply good_text; try reflexivity.
        cbn. exists s, s. unfold zone_text. rewrite D. auto.
    Qed.

    Lemma exact_duration v r : cexact (cpp_duration X v r) (csaid r (Value TDuration v)).
    Proof.
      unfold cpp_duration. text_cases v. destruct (cpp_dur_from (cx_flag X s) s) as [d| |] eqn:E.
      - eapply exact_iff; [apply exact_ret|]. apply good_text; try reflexivity.
        cbn [r_leaf cpp_rules cpp_leaf]. exists s, d. auto.
      - eapply exact_iff; [apply exact_report|]. apply (bad_text TDuration); try reflexivity.
        cbn [r_leaf cpp_rules cpp_leaf]. intros (s' & d & [= <-] & H). congruence.
      - apply exact_panic.
    Qed.

    (** *** Numbers *)

    Definition is_low (b : bounds) (cmp : Z -> option comparison) (m : Z) : Prop :=
      b_min b = Some m /\ over (b_exmin b) (cmp m) = false.
    Definition is_high (b : bounds) (cmp : Z -> option comparison) (m : Z) : Prop :=
      b_max b = Some m /\ under (b_exmax b) (cmp m) = false.

    Lemma own_number t b v cmp r e : bounds_of t = Some b -> scalar t = true ->
      r_kind L t v ->
      (forall m, b_min b = Some m -> (r_in L t (low b) v <-> over (b_exmin b) (cmp m) = true)) ->
      (forall m, b_max b = Some m -> (r_in L t (high b) v <-> under (b_exmax b) (cmp m) = true)) ->
      (csaid r (Value t v) e <->
       (exists m, is_low b cmp m /\ cone r (Value t v) (Below m) e) \/
       (exists m, is_high b cmp m /\ cone r (Value t v) (Above m) e)).
    Proof.
      intros Hb Hs Kd C1 C2. rewrite said_scalar by exact Hs. unfold own, one.
      assert (N : number L t v). { split; [exact Kd|]. destruct t; try exact I. split; exact I. }
      split.
      - intros (R0 & k & H & M). rewrite holds_number in H by exact Hb.
        destruct H as [(_ & C)|[(_ & Et & _ & C)|[(_ & Et & _ & _ & C)|[(m & -> & _ & Em & C)|(m & -> & _ & Em & C & F)]]]].
        + destruct (C Kd).
        + destruct (C I).
        + destruct (C I).
        + left. exists m. rewrite (C1 m Em), not_true_iff_false in C. split; [split; assumption|auto].
        + right. exists m. rewrite (C2 m Em), not_true_iff_false in C. split; [split; assumption|auto].
      - intros [(m & [Em C] & R0 & M)|(m & [Em C] & R0 & M)]; (split; [exact R0|]); eexists; (split; [|exact M]);
          rewrite holds_number by exact Hb.
        + right. right. right. left. exists m. split; [reflexivity|]. split; [exact N|]. split; [exact Em|].
          rewrite (C1 m Em), C. discriminate.
        + right. right. right. right. exists m. split; [reflexivity|]. split; [exact N|]. split; [exact Em|].
          split; [rewrite (C2 m Em), C; discriminate|]. intros F. discriminate F.
    Qed.

    Lemma exact_bounds t b v cmp x r : bounds_of t = Some b -> scalar t = true ->
      r_kind L t v ->
      (forall m, b_min b = Some m -> (r_in L t (low b) v <-> over (b_exmin b) (cmp m) = true)) ->
      (forall m, b_max b = Some m -> (r_in L t (high b) v <-> under (b_exmax b) (cmp m) = true)) ->
      cexact (ccheck_bounds X b cmp x r) (csaid r (Value t v)).
    Proof.
      intros Hb Hs Kd C1 C2.
      assert (Elo : forall m, cpp_text (Value t v) (Below m) = CExpectedBound (cop_min b) m).
      { intros m. unfold cpp_text, symbol_min, cop_min. rewrite Hb. reflexivity. }
      assert (Ehi : forall m, cpp_text (Value t v) (Above m) = CExpectedBound (cop_max b) m).
      { intros m. unfold cpp_text, symbol_max, cop_max. rewrite Hb. reflexivity. }
      eapply exact_iff; [|intros e; symmetry; apply (own_number t b v cmp r e Hb Hs Kd C1 C2)].
      assert (Lo : cexact (match b_min b with
          | Some m => if negb (over (b_exmin b) (cmp m)) then creport r (CExpectedBound (cop_min b) m) false else cret true
          | None => cret true end) (fun e => exists m, is_low b cmp m /\ cone r (Value t v) (Below m) e)).
      { unfold is_low. destruct (b_min b) as [m|]; [destruct (over (b_exmin b) (cmp m)) eqn:O; cbn [negb]|].
        - eapply exact_iff; [apply exact_ret|]. intros e. split; [tauto|]. intros (m' & [[= <-] H] & _). congruence.
        - eapply exact_iff; [apply exact_report|]. intros e. unfold one. split.
          + intros HH. exists m. rewrite Elo. auto.
          + intros (m' & [[= <-] H] & HH). rewrite Elo in HH. exact HH.
        - eapply exact_iff; [apply exact_ret|]. intros e. split; [tauto|]. intros (m' & [H _] & _). discriminate H. }
      assert (Hi : forall ok, cexact (match b_max b with
          | Some m => if negb (under (b_exmax b) (cmp m)) then creport r (CExpectedBound (cop_max b) m) false else cret ok
          | None => cret ok end) (fun e => exists m, is_high b cmp m /\ cone r (Value t v) (Above m) e)).
      { intros ok. unfold is_high. destruct (b_max b) as [m|]; [destruct (under (b_exmax b) (cmp m)) eqn:O; cbn [negb]|].
        - eapply exact_iff; [apply exact_ret|]. intros e. split; [tauto|]. intros (m' & [[= <-] H] & _). congruence.
        - eapply exact_iff; [apply exact_report|]. intros e. unfold one. split.
          + intros HH. exists m. rewrite Ehi. auto.
          + intros (m' & [[= <-] H] & HH). rewrite Ehi in HH. exact HH.
        - eapply exact_iff; [apply exact_ret|]. intros e. split; [tauto|]. intros (m' & [H _] & _). discriminate H. }
      assert (All : cexact (cdo ok <- match b_min b with
                  | Some m => if negb (over (b_exmin b) (cmp m))
                              then creport r (CExpectedBound (cop_min b) m) false else cret true
                  | None => cret true
                  end;
        cdo ok' <- match b_max b with
                   | Some m => if negb (under (b_exmax b) (cmp m))
                               then creport r (CExpectedBound (cop_max b) m) false else cret ok
                   | None => cret ok
                   end;
        cret (if ok' then x else CZero)) (fun e => (exists m, is_low b cmp m /\ cone r (Value t v) (Below m) e) \/
       (exists m, is_high b cmp m /\ cone r (Value t v) (Above m) e))).
      { apply exact_bind; [exact Lo|]. intros ok. apply exact_bind_ret. apply Hi. }
      unfold ccheck_bounds. destruct (b_min b) as [m|] eqn:E1; [exact All|]. destruct (b_max b) as [m|] eqn:E2; [exact All|].
      eapply exact_iff; [apply exact_ret|]. intros e. unfold is_low, is_high. rewrite E1, E2. split; [tauto|].
      intros [(m & [H _] & _)|(m & [H _] & _)]; discriminate H.
    Qed.

    Lemma not_number t b v r : bounds_of t = Some b -> scalar t = true -> ~ r_kind L t v ->
      forall e, cerr_ref e = r /\ cerr_msg e = cpp_text (Value t v) BadKind <-> csaid r (Value t v) e.
    Proof.
      intros Hb Hs N e. symmetry. apply said_one with (k0 := BadKind).
      - intros r' s'. apply step_scalar. exact Hs.
      - intros k. rewrite holds_number by exact Hb. unfold number. split.
        + intros [(-> & _)|[(_ & _ & H & _)|[(_ & _ & H & _)|[(m & _ & [H _] & _)|(m & _ & [H _] & _)]]]];
            [reflexivity|destruct (N H)..].
        + intros ->. auto.
    Qed.

    Lemma exact_integer b v r : cexact (cpp_integer X b v r) (csaid r (Value (TInt b) v)).
    Proof.
      unfold cpp_integer. destruct (as_int64 v) as [z|] eqn:E.
      - apply (as_int64_iff 1 eq_refl) in E as [E I64].
        assert (U : forall z', whole v z' -> z' = z) by (intros z' H; exact (whole_unique v z' z H E)).
        apply exact_bounds; try reflexivity.
        + cbn. exists z. auto.
        + intros m Hm. rewrite over_Z. cbn. unfold in_range. cbn [low b_min b_max b_exmin]. split.
          * intros (z' & H & H1 & _). apply U in H as ->. specialize (H1 m Hm). destruct (b_exmin b); lia.
          * intros H. exists z. split; [exact E|]. split; [|discriminate]. intros m' Hm'.
            replace m' with m by congruence. destruct (b_exmin b); lia.
        + intros m Hm. rewrite under_Z. cbn. unfold in_range. cbn [high b_min b_max b_exmax]. split.
          * intros (z' & H & _ & H1). apply U in H as ->. specialize (H1 m Hm). destruct (b_exmax b); lia.
          * intros H. exists z. split; [exact E|]. split; [discriminate|]. intros m' Hm'.
            replace m' with m by congruence. destruct (b_exmax b); lia.
      - eapply exact_iff; [apply exact_report|]. eapply (not_number (TInt b)); try reflexivity.
        intros (z & H). apply (as_int64_iff 1 eq_refl) in H. congruence.
    Qed.

    Lemma exact_float b v r : ty_bounds_exact (TFloat b) -> cexact (cpp_float X b v r) (csaid r (Value (TFloat b) v)).
    Proof.
      intros [B1 B2]. unfold cpp_float. destruct (as_double v) as [f|] eqn:E.
      - apply as_double_iff in E.
        assert (U : forall f', double v f' -> f' = f) by (intros f' H; exact (double_unique v f' f H E)).
        apply exact_bounds; try reflexivity.
        + cbn. eauto.
        + intros m Hm. unfold float_cmp. rewrite representable_const by auto. rewrite over_f.
          cbn. unfold float_in_range. cbn [low b_min b_max b_exmin]. split.
          * intros (f' & H & H1 & _). apply U in H as ->. exact (H1 m Hm).
          * intros H. exists f. split; [exact E|]. split; [|discriminate]. intros m' Hm'. replace m' with m by congruence. exact H.
        + intros m Hm. unfold float_cmp. rewrite representable_const by auto. rewrite under_f.
          cbn. unfold float_in_range. cbn [high b_min b_max b_exmax]. split.
          * intros (f' & H & _ & H1). apply U in H as ->. exact (H1 m Hm).
          * intros H. exists f. split; [exact E|]. split; [discriminate|]. intros m' Hm'. replace m' with m by congruence. exact H.
      - eapply exact_iff; [apply exact_report|]. eapply (not_number (TFloat b)); try reflexivity.
        intros (f & H). apply as_double_iff in H. congruence.
    Qed.

    (** *** References *)

    Lemma exact_reference n v r : cexact (cpp_reference X G R n v r) (csaid r (Value (TClass n) v)).
    Proof.
      unfold cpp_reference.
      destruct v; try (eapply exact_iff; [apply exact_report|]; intros e; symmetry;
        apply said_not_text; [exact kind_class|intros [? H]; discriminate H]).
      destruct (find_class G n) as [c|] eqn:Ec; [|apply exact_panic]. fold (cregistry R c).
      destruct (lookup s (cregistry R c)) as [a|] eqn:Ea.
      - eapply exact_iff; [apply exact_ret|]. intros e. symmetry. apply said_known; [exact kind_class|].
        exists a, c. auto.
      - eapply exact_iff; [apply exact_report|]. intros e. symmetry. apply said_unknown; [exact kind_class|].
        intros (a & c' & H1 & H2). rewrite Ec in H1. injection H1 as <-. congruence.
    Qed.

    (** *** Composite values *)

    Definition parses (p : cparser X) (v : jval) : Prop :=
      forall t r, ty_bounds_exact t -> cexact (p t r) (csaid r (Value t v)).

    Lemma exact_items ps l t r : ty_bounds_exact t -> Forall2 parses ps l -> forall i,
      cexact (cpp_items X ps t r i)
        (fun e => exists j v, nth_error l j = Some v /\ csaid (below_ref r (dec_nat (i + j))) (Value t v) e).
    Proof.
      intros Bt. induction 1 as [|p v ps l Hp _ IH]; intros i; cbn [cpp_items].
      - eapply exact_iff; [apply exact_ret|]. intros e. split; [tauto|]. intros (j & v & H & _). destruct j; discriminate H.
      - eapply exact_iff; [apply exact_bind; [apply Hp; exact Bt|intros item; apply exact_full; apply exact_bind_ret; apply IH]|].
        intros e. cbn beta. split.
        + intros [H|(j & w & Hj & H)].
          * exists 0, v. rewrite Nat.add_0_r. auto.
          * exists (Datatypes.S j), w. rewrite <- plus_n_Sm. auto.
        + intros ([|j] & w & Hj & H).
          * injection Hj as <-. rewrite Nat.add_0_r in H. auto.
          * right. exists j, w. rewrite <- plus_n_Sm in H. auto.
    Qed.

    Lemma exact_array t mn mx l ps r : ty_bounds_exact t -> Forall2 parses ps l ->
      cexact (cpp_array X t mn mx ps r) (csaid r (Value (TArray t mn mx) (JArr l))).
    Proof.
      intros Bt H. unfold cpp_array. rewrite (Forall2_len _ _ _ H).
      destruct (match mn with Some m => (Z.of_nat (length l) <? m)%Z | None => false end) eqn:E1.
      { destruct mn as [m|]; [|discriminate E1]. apply Z.ltb_lt in E1.
        eapply exact_iff; [apply exact_report|]. intros e. symmetry.
        exact (said_small cerr_ref cerr_msg cpp_text G L known kind_array r t (Some m) mx l m e eq_refl E1). }
      assert (H1 : forall n, mn = Some n -> (n <= Z.of_nat (length l))%Z).
      { intros n ->. apply Z.ltb_ge in E1. exact E1. }
      destruct (match mx with Some m => (m <? Z.of_nat (length l))%Z | None => false end) eqn:E2.
      { destruct mx as [m|]; [|discriminate E2]. apply Z.ltb_lt in E2.
        eapply exact_iff; [apply exact_report|]. intros e. symmetry.
        exact (said_big cerr_ref cerr_msg cpp_text G L known kind_array r t mn (Some m) l m e H1 eq_refl E2). }
      assert (H2 : forall n, mx = Some n -> (Z.of_nat (length l) <= n)%Z).
      { intros n ->. apply Z.ltb_ge in E2. exact E2. }
      apply exact_bind_ret. eapply exact_iff; [apply exact_items; [exact Bt|exact H]|].
      intros e. rewrite said_items; [reflexivity|exact kind_array|split; assumption].
    Qed.

    Lemma exact_entries ps l t r : ty_bounds_exact t ->
      Forall2 (fun kp kv => fst kp = fst kv /\ parses (snd kp) (snd kv)) ps l ->
      forall target, cexact (cpp_entries X ps t r target)
        (fun e => exists k v, In (k, v) l /\ csaid (below_ref r k) (Value t v) e).
    Proof.
      intros Bt. induction 1 as [|[k p] [k' v] ps l [E Hp] _ IH]; intros target; cbn [cpp_entries].
      - eapply exact_iff; [apply exact_ret|]. intros e. split; [tauto|]. intros (k & v & [] & _).
      - cbn in E, Hp. subst k'.
        eapply exact_iff; [apply exact_bind; [apply Hp; exact Bt|intros item; apply exact_full; apply IH]|].
        intros e. cbn beta. split.
        + intros [H|(k' & w & Hj & H)]; [exists k, v|exists k', w]; cbn; auto.
        + intros (k' & w & [Hj|Hj] & H); [injection Hj as <- <-; auto|right; eauto].
    Qed.

    Definition about (r : str) (l : list (str * jval)) (p : prop) (e : cerr) : Prop :=
      (p_optional p = false /\ lookup (p_json p) l = None /\
       cerr_ref e = r /\ cerr_msg e = CMissingProperty (p_json p)) \/
      (exists v, lookup (p_json p) l = Some v /\
         csaid (below_ref r (p_json p)) (Value (p_type p) v) e).

    Definition parse_members (o : cmembers X) (l : list (str * jval)) : Prop :=
      forall k, match lookup k o with
                | Some p => exists v, lookup k l = Some v /\ parses p v
                | None => lookup k l = None
                end.

    Lemma exact_property p o l r fields : ty_bounds_exact (p_type p) -> parse_members o l ->
      cexact (cpp_property X p o r fields) (about r l p).
    Proof.
      intros Bt Hm. unfold cpp_property. specialize (Hm (p_json p)).
      destruct (lookup (p_json p) o) as [q|].
      - destruct Hm as (v & Hl & Hq).
        eapply exact_iff; [apply exact_bind_ret; apply Hq; exact Bt|]. intros e. unfold about. split.
        + intros H. right. exists v. auto.
        + intros [(_ & H & _)|(w & Ew & H)]; [congruence|].
          rewrite Hl in Ew. injection Ew as <-. exact H.
      - unfold about. destruct (p_optional p).
        + eapply exact_iff; [apply exact_ret|]. intros e. split; [tauto|].
          intros [(H & _)|(v & Ev & _)]; [discriminate H|]. congruence.
        + eapply exact_iff; [apply exact_report|]. intros e. split; [left; tauto|].
          intros [(_ & _ & H)|(v & Ev & _)]; [exact H|]. congruence.
    Qed.

    Lemma exact_properties o l r : parse_members o l -> forall ps fields,
      (forall p, In p ps -> ty_bounds_exact (p_type p)) ->
      cexact (cpp_properties X ps o r fields) (fun e => exists p, In p ps /\ about r l p e).
    Proof.
      intros Hm. induction ps as [|p ps IH]; intros fields B; cbn [cpp_properties].
      - eapply exact_iff; [apply exact_ret|]. intros e. split; [tauto|]. intros (p & [] & _).
      - eapply exact_iff.
        + apply exact_bind; [apply exact_property; [apply B; left; reflexivity|exact Hm]|].
          intros attrs'. apply exact_full. apply IH. intros q Hq. apply B. right. exact Hq.
        + intros e. cbn beta. split.
          * intros [H|(q & Hq & H)]; [exists p|exists q]; cbn; auto.
          * intros (q & [<-|Hq] & H); eauto.
    Qed.

    Lemma about_said r ps l e : (exists p, In p ps /\ about r l p e) <-> csaid r (Object ps (JObj l)) e.
    Proof.
      rewrite said_object. unfold about, one. cbn [r_given cpp_rules cpp_text].
      split; intros (p & Hp & [(O & A & H)|(v & H)]); exists p; (split; [exact Hp|]);
        try (left; (split; [exact O|]); (split; [|exact H])); try (right; exists v; tauto).
      - intros x Hx. congruence.
      - destruct (lookup (p_json p) l) as [x|]; [|reflexivity]. destruct (A x eq_refl I).
    Qed.

    Lemma exact_composite ps v o r fields : In ps (composites G) -> (forall l, v = JObj l -> parse_members o l) ->
      cexact (cpp_composite X ps v o r fields) (csaid r (Object ps v)).
    Proof.
      intros Hps Hm. unfold cpp_composite.
      destruct v; try (eapply exact_iff; [apply exact_report|]; intros e; symmetry;
        apply said_not_object; intros [? H]; discriminate H).
      eapply exact_iff; [|intros e; apply about_said].
      apply exact_properties; [apply Hm; reflexivity|]. intros p Hp. exact (Hbounds ps p Hps Hp).
    Qed.

    Lemma parse_members_of l : Forall (fun kv => parses (cpp_value X G order R (snd kv)) (snd kv)) l ->
      parse_members (map (fun kv => (fst kv, cpp_value X G order R (snd kv))) l) l.
    Proof.
      intros H k. induction H as [|[k' v] l Hv _ IH]; cbn; [reflexivity|].
      destruct (str_eqb k k'); [eauto|exact IH].
    Qed.

    Lemma embed_composite n em : find_embed G n = Some em -> In (e_props em) (composites G).
    Proof.
      intros H. apply find_some in H as [H _]. unfold composites. apply in_or_app. right. apply in_or_app. left.
      apply in_map. exact H.
    Qed.

    Lemma exact_value v : parses (cpp_value X G order R v) v.
    Proof.
      induction v as [| | | | |l IH|l IH] using jval_ind'; intros t r B; destruct t; cbn [cpp_value];
        try apply exact_boolean; try apply exact_integer; try (apply exact_float; exact B);
        try (apply exact_string; tauto);
        try apply exact_time_zone; try apply exact_duration; try apply exact_reference;
        try (apply exact_dt; tauto);
        try (eapply exact_iff; [apply exact_report|]; intros e; symmetry;
             first [apply said_not_array; [exact kind_array|discriminate]
                   |apply said_not_map; [exact kind_map|intros [? H]; discriminate H]]);
        try (destruct (find_embed G name) as [em|] eqn:F; [|apply exact_panic];
             apply exact_bind_ret; eapply exact_iff; [|intros e; symmetry; apply said_embed; exact F];
             apply exact_composite; [eapply embed_composite; exact F|]; intros l' [=]).
      - apply exact_array; [exact B|]. clear -IH. induction IH; constructor; auto.
      - apply exact_bind_ret.
        pose proof (Hord _ 0 r (map (fun kv => (fst kv, cpp_value X G order R (snd kv))) l)) as P.
        apply Permutation_sym, Permutation_map_inv in P as (l' & -> & P).
        eapply exact_iff; [apply exact_entries with (l := l'); [exact B|]|].
        + apply (Permutation_Forall P) in IH. clear -IH. induction IH; constructor; auto.
        + intros e. rewrite said_map by exact kind_map. split; intros (k & v & Hi & H); exists k, v; (split; [|exact H]).
          * eapply Permutation_in; [symmetry; exact P|exact Hi].
          * eapply Permutation_in; [exact P|exact Hi].
      - subst l'. apply parse_members_of. exact IH.
    Qed.
  End Values.

  (** *** The registries *)

  Notation cown known := (own cerr_ref cerr_msg cpp_text L known).
  Notation csaid known := (said cerr_ref cerr_msg cpp_text G L known).

  Lemma exact_allocate c ref ids : forall reg heap,
    cexact (cpp_allocate X c ref ids reg heap)
      (fun e => cerr_ref e = cslash ref (cpp_key (c_plural c)) /\
         exists id p, In id ids /\ c_id_pattern c = Some p /\ cx_match X p id = false /\
           cerr_msg e = CIdMismatch p id).
  Proof.
    induction ids as [|id ids IH]; intros reg heap; cbn [cpp_allocate].
    - eapply exact_iff; [apply exact_ret|]. intros e. split; [tauto|]. intros (_ & id & p & [] & _).
    - destruct (c_id_pattern c) as [p|] eqn:Ep; [destruct (cx_match X p id) eqn:Em; cbn [negb]|].
      + eapply exact_iff; [apply IH|]. intros e. cbn beta. split; intros (Hr & id' & p' & Hi & H); (split; [exact Hr|]);
          exists id', p'.
        * split; [right; exact Hi|exact H].
        * destruct Hi as [<-|Hi]; [|auto]. destruct H as ([= <-] & H & _). congruence.
      + eapply exact_iff.
        * apply exact_bind; [apply exact_report|intros _; apply exact_full; apply IH].
        * intros e. cbn beta. split.
          -- intros [(Hr & M)|(Hr & id' & p' & Hi & H)]; (split; [exact Hr|]).
             ++ exists id, p. cbn. auto.
             ++ exists id', p'. cbn. tauto.
          -- intros (Hr & id' & p' & [<-|Hi] & Hp & H).
             ++ injection Hp as <-. left. tauto.
             ++ right. split; [exact Hr|]. exists id', p'. auto.
      + eapply exact_iff; [apply IH|]. intros e. cbn beta. split; intros (Hr & id' & p' & Hi & H & _); discriminate H.
  Qed.

  Definition about_registry (known : str -> str -> Prop) (r : str) (l : list (str * jval)) (cs : list cls) (e : cerr) : Prop :=
    exists c x, In c cs /\ lookup (cpp_cls_key c) l = Some x /\
      cown known (below_ref r (cpp_cls_key c)) (Registry c x) e.

  Lemma exact_preallocate kn l r cs : forall R heap,
    cexact (cpp_preallocate X order cs l r R heap) (about_registry kn r l cs).
  Proof.
    induction cs as [|c cs IH]; intros R heap; cbn [cpp_preallocate].
    - eapply exact_iff; [apply exact_ret|]. intros e. split; [tauto|]. intros (c & x & [] & _).
    - apply exact_iff with (P := fun e =>
        (exists x, lookup (cpp_cls_key c) l = Some x /\
           cown kn (below_ref r (cpp_cls_key c)) (Registry c x) e) \/ about_registry kn r l cs e).
      + apply exact_bind; [|intros []; apply IH].
        fold (cpp_cls_key c). destruct (lookup (cpp_cls_key c) l) as [x|] eqn:E.
        * assert (Bad : ~ is_object x ->
            forall e, (cerr_ref e = cslash r (cpp_cls_key c) /\ cerr_msg e = CExpectedType (s_ "an object") (ctype_of x)) <->
              exists x0, Some x = Some x0 /\ cown kn (below_ref r (cpp_cls_key c)) (Registry c x0) e).
          { intros N1 e. split.
            - intros [Hr M]. exists x. split; [reflexivity|]. apply own_registry. split; [exact Hr|].
              left. split; [exact N1|exact M].
            - intros (x0 & [= <-] & H). apply own_registry in H as [Hr [[_ M]|(m & ? & ? & -> & _)]].
              + split; [exact Hr|exact M].
              + destruct N1. eexists. reflexivity. }
          destruct x as [| | | | | |m];
            try (eapply exact_iff; [apply exact_report|apply Bad; intros [? HH]; discriminate HH]).
          eapply exact_iff.
          -- apply exact_bind; [apply exact_allocate|]. intros []. apply exact_ret.
          -- pose proof (Permutation_keys _ _ (Hord _ 1 (cslash r (cpp_cls_key c)) m)) as Pm.
             intros e. cbn beta. split.
             ++ intros [(Hr & id & p & Hi & Hp & Hm & M)|[]]. exists (JObj m). split; [reflexivity|].
                apply own_registry. split; [exact Hr|]. right. exists m, id, p.
                split; [reflexivity|]. split; [eapply Permutation_in; [symmetry; exact Pm|exact Hi]|].
                split; [exact Hp|]. split; [|exact M].
                cbn. unfold cpp_id_ok. congruence.
             ++ intros (x & [= <-] & H). left. apply own_registry in H as [Hr [[N _]|(m' & id & p & [= <-] & Hi & Hp & N & M)]].
                ** destruct N. eexists. reflexivity.
                ** split; [exact Hr|]. exists id, p. split; [eapply Permutation_in; [exact Pm|exact Hi]|].
                   split; [exact Hp|]. split; [|exact M].
                   apply not_true_iff_false. exact N.
        * eapply exact_iff; [apply exact_ret|]. intros e. split; [tauto|]. intros (x & H & _). discriminate H.
      + intros e. unfold about_registry. split.
        * intros [(x & H)|(c' & x & Hc & H)]; [exists c, x|exists c', x]; cbn; tauto.
        * intros (c' & x & [<-|Hc] & H); [left; eauto|right; eauto].
  Qed.

  Section Second.
    Variable R : cregistries.
    Let known (n id : str) : Prop := exists a, cdesignates G R n id a.

    Lemma members_of_parse l : parse_members R (cmembers_of X G order R (JObj l)) l.
    Proof. apply parse_members_of. apply Forall_forall. intros kv _. apply exact_value. Qed.

    Lemma exact_instances c reg ref m : In c (g_classes G) -> forall heap,
      cexact (cpp_instances X G order c R reg ref m heap)
        (fun e => exists id v, In (id, v) m /\
           csaid known (below_ref (below_ref ref (cpp_cls_key c)) id) (Object (c_props c) v) e).
    Proof.
      intros Hc. induction m as [|[id v] m IH]; intros heap; cbn [cpp_instances].
      - eapply exact_iff; [apply exact_ret|]. intros e. split; [tauto|]. intros (id & v & [] & _).
      - destruct (lookup id reg) as [a|]; [|apply exact_panic].
        destruct (nth_error heap a) as [i|]; [|apply exact_panic].
        eapply exact_iff.
        + apply exact_bind; [apply (exact_composite R)|intros fields; apply exact_full; apply IH].
          * apply class_composite. exact Hc.
          * intros l ->. apply members_of_parse.
        + intros e. cbn beta. split.
          * intros [H|(id' & v' & Hi & H)]; [exists id, v|exists id', v']; cbn; auto.
          * intros (id' & v' & [Hi|Hi] & H); [injection Hi as <- <-; auto|right; eauto].
    Qed.

    Definition about_instance (r : str) (l : list (str * jval)) (cs : list cls) (e : cerr) : Prop :=
      exists c m id v, In c cs /\ lookup (cpp_cls_key c) l = Some (JObj m) /\ In (id, v) m /\
        csaid known (below_ref (below_ref r (cpp_cls_key c)) id) (Object (c_props c) v) e.

    Lemma registries_early l r cs : forall heap es es',
      cpp_registries X G order cs l r R heap es = CDone (None, es') -> cpp_full es' = true.
    Proof.
      induction cs as [|c cs IH]; intros heap es es' H; cbn [cpp_registries] in H; [discriminate H|].
      unfold cbind in H. match type of H with match ?m with _ => _ end = _ => destruct m as [[h es1]|] end; [|discriminate H].
      destruct (cpp_full es1) eqn:F; [injection H as <-; exact F|eauto].
    Qed.

    Lemma exact_registries l r cs : incl cs (g_classes G) ->
      (forall c x, In c cs -> lookup (cpp_cls_key c) l = Some x -> is_object x) -> forall heap,
      cexact (cpp_registries X G order cs l r R heap) (about_instance r l cs).
    Proof.
      induction cs as [|c cs IH]; intros Inc Ob heap; cbn [cpp_registries].
      - eapply exact_iff; [apply exact_ret|]. intros e. split; [tauto|]. intros (c & m & id & v & [] & _).
      - fold (cpp_cls_key c).
        assert (Inc' : incl cs (g_classes G)) by (intros d Hd; apply Inc; right; exact Hd).
        apply exact_iff with (P := fun e =>
          (exists m id v, lookup (cpp_cls_key c) l = Some (JObj m) /\ In (id, v) m /\
             csaid known (below_ref (below_ref r (cpp_cls_key c)) id) (Object (c_props c) v) e) \/
          about_instance r l cs e).
        + apply exact_bind; [|intros heap'; apply exact_full; apply IH; [exact Inc'|intros d x Hd; apply Ob; right; exact Hd]].
          destruct (lookup (cpp_cls_key c) l) as [x|] eqn:E.
          2:{ eapply exact_iff; [apply exact_ret|]. intros e. split; [tauto|]. intros (? & ? & ? & H & _). discriminate H. }
          destruct (Ob c x (or_introl eq_refl) E) as [m ->]. cbn [iterated].
          eapply exact_iff; [apply exact_instances; apply Inc; left; reflexivity|].
          pose proof (Hord _ 2 (cslash r (cpp_cls_key c)) m) as Pm.
          intros e. split.
          * intros (id & v & Hi & H). exists m, id, v. split; [reflexivity|]. split; [|exact H].
            eapply Permutation_in; [symmetry; exact Pm|exact Hi].
          * intros (m' & id & v & [= <-] & Hi & H). exists id, v. split; [|exact H].
            eapply Permutation_in; [exact Pm|exact Hi].
        + intros e. unfold about_instance. split.
          * intros [(m & id & v & H)|(c' & m & id & v & Hc & H)].
            -- exists c, m, id, v. cbn. tauto.
            -- exists c', m, id, v. cbn. tauto.
          * intros (c' & m & id & v & [<-|Hc] & H); [left; exists m, id, v; exact H|].
            right. exists c', m, id, v. auto.
    Qed.
  End Second.

  Lemma said_mono (k1 k2 : str -> str -> Prop) r s e : (forall n id, k1 n id <-> k2 n id) ->
    csaid k1 r s e -> csaid k2 r s e.
  Proof.
    intros H (s' & k & [W Hk] & M). exists s', k. split; [|exact M]. split; [exact W|].
    destruct s' as [v|c v|ps v|t v], k; cbn in Hk |- *; auto. rewrite <- H. exact Hk.
  Qed.

  Hypothesis Hfields : cfields_distinct G.

  Notation ctells := (tells cerr_ref cerr_msg cpp_text G L).
  Notation ctells_registry := (tells_registry cerr_ref cerr_msg cpp_text G L).

  Lemma graph_from_errors w ref cap a es' :
    json_wf w -> (0 < cap)%N ->
    cpp_graph_from X G order w ref (empty_errs cap) = CDone (a, es') ->
    (forall e, In e (cpp_values es') -> ctells ref w e) /\
    (croom es' ->
       (forall e, ctells_registry ref w e -> In e (cpp_values es')) /\
       ((exists e, ctells_registry ref w e) -> forall e, In e (cpp_values es') -> ctells_registry ref w e) /\
       ((forall e, ~ ctells_registry ref w e) -> forall e, ctells ref w e -> In e (cpp_values es'))).
  Proof.
    intros W Hcap H.
    unfold cpp_graph_from in H. cbn [cpp_empty cpp_errors_new cpp_values negb] in H.
    set (kn := listed_in G L w).
    assert (Tell : forall e, ctells ref w e <-> csaid kn ref (Whole w) e) by reflexivity.
    assert (TellR : forall e, ctells_registry ref w e <->
      exists l c x, w = JObj l /\ In c (g_classes G) /\ lookup (cpp_cls_key c) l = Some x /\ True /\
        cown kn (below_ref ref (cpp_cls_key c)) (Registry c x) e).
    { intros e. apply said_registries. }
    assert (Incl : forall e, ctells_registry ref w e -> ctells ref w e).
    { intros e (s & k & _ & HH). exists s, k. exact HH. }
    (* Not an object. *)
    assert (Bad : ~ is_object w -> creport ref (CExpectedType (s_ "an object") (ctype_of w)) None (empty_errs cap) = CDone (a, es') ->
      (forall e, In e (cpp_values es') -> ctells ref w e) /\
      (croom es' ->
         (forall e, ctells_registry ref w e -> In e (cpp_values es')) /\
         ((exists e, ctells_registry ref w e) -> forall e, In e (cpp_values es') -> ctells_registry ref w e) /\
         ((forall e, ~ ctells_registry ref w e) -> forall e, ctells ref w e -> In e (cpp_values es')))).
    { intros N Eq. destruct (exact_report ref (CExpectedType (s_ "an object") (ctype_of w)) (@None (cgraph (cx_time X))) _ a es' Eq)
        as (_ & S1 & C1).
      assert (K : forall e, csaid kn ref (Whole w) e <->
        cerr_ref e = ref /\ cerr_msg e = CExpectedType (s_ "an object") (ctype_of w)).
      { intros e. rewrite said_whole, said_not_object by exact N. split.
        - intros [HH|(l & c & x & -> & _)]; [exact HH|]. destruct N. eexists. reflexivity.
        - intros HH. left. exact HH. }
      assert (NR : forall e, ~ ctells_registry ref w e).
      { intros e HH. apply TellR in HH as (l & ? & ? & -> & _). apply N. eexists. reflexivity. }
      split; [|intros Rm; split; [|split]].
      - intros e He. apply Tell, K. apply S1 in He as [[]|He]. exact He.
      - intros e HH. destruct (NR e HH).
      - intros [e HH]. destruct (NR e HH).
      - intros _ e HH. apply C1; [exact Rm|]. apply K. exact HH. }
    destruct w as [| | | | | |l]; try (apply Bad; [intros [? HH]; discriminate HH|exact H]). clear Bad.
    unfold cbind at 1 in H.
    destruct (cpp_preallocate X order (g_classes G) l ref [] [] (empty_errs cap)) as [[[R heap] es1]|] eqn:P; [|discriminate H].
    destruct (exact_preallocate kn _ _ _ _ _ _ _ _ P) as (G1 & S1 & C1).
    assert (AR : forall e, about_registry kn ref l (g_classes G) e <-> ctells_registry ref (JObj l) e).
    { intros e. rewrite TellR. unfold about_registry. split.
      - intros (c & x & HH). exists l, c, x. tauto.
      - intros (l' & c & x & [= <-] & HH). exists c, x. tauto. }
    destruct (_ && _) eqn:B in H.
    { injection H as <- <-. apply andb_prop in B as [_ B].
      split; [|intros Rm; split; [|split]].
      - intros e He. apply Incl, AR. apply S1 in He as [[]|He]. exact He.
      - intros e HH. apply (C1 Rm). apply AR. exact HH.
      - intros _ e He. apply AR. apply S1 in He as [[]|He]. exact He.
      - intros NR. exfalso. unfold cpp_empty in B.
        destruct (cpp_values es1) as [|e0 l0] eqn:V; [discriminate B|].
        destruct (S1 e0 (or_introl eq_refl)) as [[]|HH]. apply (NR e0). apply AR. exact HH. }
    assert (E1 : es1 = empty_errs cap).
    { destruct G1 as (Ec & _). cbn in Ec. rewrite <- Ec. apply empty_iff. destruct (g_classes G) as [|c cs].
      - injection P as _ _ <-. reflexivity.
      - cbn [andb] in B. apply negb_false_iff in B. exact B. }
    subst es1.
    apply (preallocate_sound X order Hord cap Hcap l ref W (g_classes G) [] [] []) in P;
      [|exact (proj2 Hfields)|apply inv_init]. cbn [app] in P.
    assert (Kn : forall n id, (exists a, cdesignates G R n id a) <-> kn n id).
    { intros n id. rewrite (known_listed X G l R heap P n id). unfold kn, listed_in. split.
      - intros HH. exists l. auto.
      - intros (l' & [= <-] & HH). exact HH. }
    assert (Re : croom (empty_errs cap)) by (unfold croom; cbn; lia).
    assert (NR : forall e, ~ ctells_registry ref (JObj l) e).
    { intros e HH. apply AR in HH. exact (C1 Re e HH). }
    assert (Ob : forall c x, In c (g_classes G) -> lookup (cpp_cls_key c) l = Some x -> is_object x).
    { intros c x Hc El. destruct x as [| | | | | |m]; try (exfalso; eapply (NR (CErr _ _)); apply TellR;
        exists l, c; eexists; (split; [reflexivity|]); (split; [exact Hc|]); (split; [exact El|]); (split; [exact I|]);
        apply own_registry; (split; [reflexivity|]); left; (split; [intros [? HH]; discriminate HH|reflexivity])).
      eexists. reflexivity. }
    assert (F : cexact (cdo r <- cpp_registries X G order (g_classes G) l ref R heap;
                match r with
                | None => cret None
                | Some heap' =>
                    cdo fields <- cpp_properties X (g_props G) (cmembers_of X G order R (JObj l)) ref (default_fields X (g_props G));
                    cret (Some (CGraph fields R heap'))
                end) (fun e => about_instance R ref l (g_classes G) e \/
                  csaid (fun n id => exists a, cdesignates G R n id a) ref (Object (g_props G) (JObj l)) e)).
    { apply exact_bind_opt; [apply exact_registries; [apply incl_refl|exact Ob]|apply registries_early|].
      intros heap'. eapply exact_iff.
      - apply exact_bind_ret. apply (exact_properties R); [apply members_of_parse|].
        intros p Hp. apply (Hbounds (g_props G)); [|exact Hp].
        unfold composites. rewrite !in_app_iff. right. right. left. reflexivity.
      - intros e. apply (about_said R). }
    destruct (F _ _ _ H) as (_ & S2 & C2).
    assert (All : forall e, (about_instance R ref l (g_classes G) e \/
                  csaid (fun n id => exists a, cdesignates G R n id a) ref (Object (g_props G) (JObj l)) e) <-> ctells ref (JObj l) e).
    { intros e. rewrite Tell, said_whole. split.
      - intros [(c & m & id & v & Hc & El & Hi & HH)|HH].
        + right. exists l, c, (JObj m). split; [reflexivity|]. split; [exact Hc|]. split; [exact El|]. split; [exact I|].
          rewrite said_registry. right. exists m, id, v. split; [reflexivity|]. split; [exact Hi|].
          eapply said_mono; [exact Kn|exact HH].
        + left. eapply said_mono; [exact Kn|exact HH].
      - intros [HH|(l' & c & x & [= <-] & Hc & El & Gx & HH)].
        + right. eapply said_mono; [|exact HH]. intros n id. symmetry. apply Kn.
        + left. rewrite said_registry in HH. destruct HH as [HH|(m & id & v & -> & Hi & HH)].
          * exfalso. apply (NR e). apply TellR. exists l, c, x. auto.
          * exists c, m, id, v. split; [exact Hc|]. split; [exact El|]. split; [exact Hi|].
            eapply said_mono; [|exact HH]. intros n id'. symmetry. apply Kn. }
    split; [|intros Rm; split; [|split]].
    - intros e He. apply All. apply S2 in He as [[]|He]. exact He.
    - intros e HH. destruct (NR e HH).
    - intros [e HH]. destruct (NR e HH).
    - intros _ e HH. apply (C2 Rm). apply All. exact HH.
  Qed.
End Cpp.
