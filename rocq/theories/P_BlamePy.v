(** The errors of the generated Python parser are what is wrong with the document (C51). *)
From Coq Require Import String List Arith NArith ZArith Bool Lia.
From Verif Require Import Base M_Naming M_Errors M_Dec M_Schema M_PyGen S_Conform S_PyGen S_Blame
  P_PyBase P_PyUnknown P_PyClean P_PyGraph P_Blame.
Import ListNotations.
Local Open Scope nat_scope.

(** [m] reports what satisfies [P]: nothing else, and all of it if there is room. *)
Definition exact {A} (m : M A) (P : perr -> Prop) : Prop :=
  forall es a es', m es = Ok (a, es') ->
    grown es es' /\
    (forall e, In e (py_values es') -> In e (py_values es) \/ P e) /\
    (room es' -> forall e, P e -> In e (py_values es')).

Lemma exact_iff {A} (m : M A) (P Q : perr -> Prop) : exact m P -> (forall e, P e <-> Q e) -> exact m Q.
Proof.
  intros H PQ es a es' E. destruct (H es a es' E) as (H1 & H2 & H3). split; [exact H1|]. split.
  - intros e He. rewrite <- PQ. exact (H2 e He).
  - intros R e He. apply (H3 R). rewrite PQ. exact He.
Qed.

Lemma exact_ret {A} (a : A) : exact (ret a) (fun _ => False).
Proof. intros es b es' H. injection H as <- <-. split; [apply grown_refl|]. split; [auto|intros _ e []]. Qed.

Lemma exact_fail {A} x P : exact (@fail A x) P.
Proof. intros es b es' H. discriminate. Qed.

Lemma exact_report {A} ref m (a : A) : exact (report ref m a) (fun e => err_ref e = ref /\ err_msg e = m).
Proof.
  intros es b es' H. injection H as <- <-. split; [apply grown_add|].
  unfold add, py_add, room. destruct (_ <? _)%Z eqn:E; cbn [py_values py_cap].
  - split.
    + intros e He. apply in_app_or in He as [He|[<-|[]]]; [auto|]. right. cbn. auto.
    + intros _ [r m'] [<- <-]. apply in_or_app. right. left. reflexivity.
  - split; [auto|]. intros R. apply Z.ltb_ge in E. lia.
Qed.

Lemma exact_report_fmt {A} x ref m (a : A) :
  exact (report_fmt x ref m a) (fun e => err_ref e = ref /\ err_msg e = m).
Proof. destruct x; [apply exact_fail|apply exact_report]. Qed.

Lemma grown_room es es' : grown es es' -> room es' -> room es.
Proof.
  intros [E [l El]]. unfold room. rewrite E, El, app_length. lia.
Qed.

Lemma grown_In es es' e : grown es es' -> In e (py_values es) -> In e (py_values es').
Proof. intros [_ [l El]] H. rewrite El. apply in_or_app. auto. Qed.

Lemma exact_bind {A B} (m : M A) (f : A -> M B) P Q :
  exact m P -> (forall a, exact (f a) Q) -> exact (mbind m f) (fun e => P e \/ Q e).
Proof.
  intros Hm Hf es b es' H. unfold mbind in H. destruct (m es) as [[a es1]|] eqn:E; [|discriminate].
  destruct (Hm _ _ _ E) as (G1 & S1 & C1). destruct (Hf a _ _ _ H) as (G2 & S2 & C2).
  split; [eapply grown_trans; eassumption|]. split.
  - intros e He. apply S2 in He as [He|He]; [|auto]. apply S1 in He as [He|He]; auto.
  - intros R e [He|He]; [|exact (C2 R e He)].
    eapply grown_In; [exact G2|]. apply C1; [eapply grown_room; eassumption|exact He].
Qed.

Lemma exact_bind_ret {A B} (m : M A) (f : A -> B) P : exact m P -> exact (mdo x <- m; ret (f x)) P.
Proof.
  intros H. eapply exact_iff; [apply exact_bind; [exact H|intros a; apply exact_ret]|]. cbn. tauto.
Qed.

Lemma exact_full {A} (a : A) (m : M A) P : exact m P ->
  exact (fun es => if py_full es then Ok (a, es) else m es) P.
Proof.
  intros Hm es b es' H. destruct (py_full es) eqn:F; [|eapply Hm; exact H].
  injection H as <- <-. split; [apply grown_refl|]. split; [auto|].
  intros R. apply room_not_full in R. congruence.
Qed.

(** A part which stops the whole when it returns [None], which it does only if the errors
    are full. *)
Lemma exact_bind_opt {A B} (m : M (option A)) (f : A -> M (option B)) P Q :
  exact m P -> (forall es es', m es = Ok (None, es') -> py_full es' = true) ->
  (forall a, exact (f a) Q) ->
  exact (mbind m (fun r => match r with None => ret None | Some a => f a end)) (fun e => P e \/ Q e).
Proof.
  intros Hm Hn Hf es b es' H. unfold mbind in H. destruct (m es) as [[[a|] es1]|] eqn:E; [| |discriminate].
  - destruct (Hm _ _ _ E) as (G1 & S1 & C1). destruct (Hf a _ _ _ H) as (G2 & S2 & C2).
    split; [eapply grown_trans; eassumption|]. split.
    + intros e He. apply S2 in He as [He|He]; [|auto]. apply S1 in He as [He|He]; auto.
    + intros R e [He|He]; [|exact (C2 R e He)].
      eapply grown_In; [exact G2|]. apply C1; [eapply grown_room; eassumption|exact He].
  - injection H as <- <-. destruct (Hm _ _ _ E) as (G1 & S1 & C1). split; [exact G1|]. split.
    + intros e He. apply S1 in He as [He|He]; auto.
    + intros R. apply room_not_full in R. rewrite (Hn _ _ E) in R. discriminate.
Qed.

Section Py.
  Variable X : ext.
  Variable S : py_settings.
  Variable G : graph.
  Notation L := (py_rules X S).

  Section Values.
    Variable R : registries.
    Let known' := known G R.
    Notation psaid := (said err_ref err_msg py_text G L known').
    Notation pone := (one err_ref err_msg py_text).

    Lemma kind_array t mn mx v : r_kind L (TArray t mn mx) v <-> exists l, v = JArr l.
    Proof. reflexivity. Qed.
    Lemma kind_map t v : r_kind L (TMap t) v <-> is_object v.
    Proof. reflexivity. Qed.
    Lemma kind_class n v : r_kind L (TClass n) v <-> is_text v.
    Proof. reflexivity. Qed.

    (** *** Scalars *)

    Lemma exact_boolean v r : exact (parse_boolean v r) (psaid r (Value TBool v)).
    Proof.
      unfold parse_boolean. destruct v;
        try (eapply exact_iff; [apply exact_report|]; intros e; symmetry;
             apply said_one with (k0 := BadKind);
             [intros r' s'; apply step_scalar; reflexivity
             |intros k; rewrite holds_bool; cbn; split; [tauto|intros ->; split; [reflexivity|intros [b H]; discriminate H]]]).
      eapply exact_iff; [apply exact_ret|]. intros e. symmetry.
      apply said_none; [intros r' s'; apply step_scalar; reflexivity|].
      intros k. rewrite holds_bool. cbn. intros [_ H]. apply H. eauto.
    Qed.

    Lemma not_text t v r : textual t = true -> scalar t = true -> ~ is_text v ->
      (forall w, r_kind L t w <-> is_text w) ->
      forall e, err_ref e = r /\ err_msg e = py_text (Value t v) BadKind <-> psaid r (Value t v) e.
    Proof.
      intros Ht Hs N K e. symmetry. apply said_one with (k0 := BadKind).
      - intros r' s'. apply step_scalar. exact Hs.
      - intros k. rewrite holds_text by exact Ht. rewrite K. split.
        + intros [[-> _]|[-> (s & -> & _)]]; [reflexivity|]. exfalso. apply N. eexists. reflexivity.
        + intros ->. auto.
    Qed.

    Lemma bad_text t s r : textual t = true -> scalar t = true ->
      (forall w, r_kind L t w <-> is_text w) -> ~ r_leaf L t (JStr s) ->
      forall e, err_ref e = r /\ err_msg e = py_text (Value t (JStr s)) BadText <-> psaid r (Value t (JStr s)) e.
    Proof.
      intros Ht Hs K N e. symmetry. apply said_one with (k0 := BadText).
      - intros r' s'. apply step_scalar. exact Hs.
      - intros k. rewrite holds_text by exact Ht. rewrite K. split.
        + intros [[-> H]|[-> _]]; [|reflexivity]. exfalso. apply H. eexists. reflexivity.
        + intros ->. right. eauto.
    Qed.

    Lemma good_text t s r : textual t = true -> scalar t = true ->
      (forall w, r_kind L t w <-> is_text w) -> r_leaf L t (JStr s) ->
      forall e, False <-> psaid r (Value t (JStr s)) e.
    Proof.
      intros Ht Hs K H e. symmetry. apply said_none.
      - intros r' s'. apply step_scalar. exact Hs.
      - intros k. rewrite holds_text by exact Ht. rewrite K. intros [[_ C]|[_ (s' & [= <-] & C)]].
        + apply C. eexists. reflexivity.
        + exact (C H).
    Qed.

    Ltac text_cases v :=
      destruct v as [|?|?|?|s|?|?];
      try (eapply exact_iff; [apply exact_report|]; 
           match goal with |- forall e, _ <-> said _ _ _ _ _ _ ?r (Value ?t ?w) e => apply (not_text t w r) end;
           [reflexivity|reflexivity|intros [? H]; discriminate H|intros w; reflexivity]).

    Lemma exact_string p v r : exact (parse_string X p v r) (psaid r (Value (TStr p) v)).
    Proof.
      unfold parse_string. text_cases v. unfold check_pattern. destruct p as [p|].
      - destruct (x_re_match X p s) eqn:E.
        + eapply exact_iff; [apply exact_ret|]. apply good_text; try reflexivity.
          cbn. exists s. split; [reflexivity|]. intros q [= <-]. exact E.
        + eapply exact_iff; [apply exact_report_fmt|]. apply (bad_text (TStr (Some p))); try reflexivity.
          cbn. intros (s' & [= <-] & H). specialize (H p eq_refl). congruence.
      - eapply exact_iff; [apply exact_ret|]. apply good_text; try reflexivity.
        cbn. exists s. split; [reflexivity|]. discriminate.
    Qed.

    Lemma exact_path p v r : exact (parse_path X S p v r) (psaid r (Value (TPath p) v)).
    Proof.
      unfold parse_path. text_cases v. unfold check_pattern. destruct p as [p|].
      - destruct (x_re_match X p s) eqn:E.
        + eapply exact_iff; [apply exact_ret|]. apply good_text; try reflexivity.
          cbn. exists s. split; [reflexivity|]. intros q [= <-]. exact E.
        + eapply exact_iff; [apply exact_report_fmt|]. apply (bad_text (TPath (Some p))); try reflexivity.
          cbn. intros (s' & [= <-] & H). specialize (H p eq_refl). congruence.
      - eapply exact_iff; [apply exact_ret|]. apply good_text; try reflexivity.
        cbn. exists s. split; [reflexivity|]. discriminate.
    Qed.

    Lemma exact_dt t f wrap v r : t = TDate f \/ t = TTime f \/ t = TDatetime f ->
      exact (parse_dt X wrap f v r) (psaid r (Value t v)).
    Proof.
      unfold parse_dt. intros [->|[->| ->]]; text_cases v; destruct (x_strptime X f s) as [d|] eqn:E;
        try (eapply exact_iff; [apply exact_ret|]; apply good_text; try reflexivity;
             cbn; exists s; split; [reflexivity|congruence]).
      - eapply exact_iff; [apply exact_report_fmt|]. apply (bad_text (TDate f)); try reflexivity.
        cbn. intros (s' & [= <-] & H). exact (H E).
      - eapply exact_iff; [apply exact_report_fmt|]. apply (bad_text (TTime f)); try reflexivity.
        cbn. intros (s' & [= <-] & H). exact (H E).
      - eapply exact_iff; [apply exact_report_fmt|]. apply (bad_text (TDatetime f)); try reflexivity.
        cbn. intros (s' & [= <-] & H). exact (H E).
    Qed.

    Lemma exact_time_zone v r : exact (parse_time_zone X S v r) (psaid r (Value TTimeZone v)).
    Proof.
      unfold parse_time_zone. text_cases v. destruct (pytz S) eqn:Z; [destruct (x_tz X s) as [z|] eqn:E|].
      - eapply exact_iff; [apply exact_ret|]. apply good_text; try reflexivity.
        cbn. exists s. split; [reflexivity|]. congruence.
      - eapply exact_iff; [apply exact_report|]. apply (bad_text TTimeZone); try reflexivity.
        cbn. intros (s' & [= <-] & H). exact (H Z E).
      - eapply exact_iff; [apply exact_ret|]. apply good_text; try reflexivity.
        cbn. exists s. split; [reflexivity|]. congruence.
    Qed.

    Lemma exact_duration v r : exact (parse_duration X v r) (psaid r (Value TDuration v)).
    Proof.
      unfold parse_duration. text_cases v. destruct (x_dur_from X s) as [us|] eqn:E.
      - eapply exact_iff; [apply exact_ret|]. apply good_text; try reflexivity.
        cbn. exists s. split; [reflexivity|]. congruence.
      - eapply exact_iff; [apply exact_report|]. apply (bad_text TDuration); try reflexivity.
        cbn. intros (s' & [= <-] & H). exact (H E).
    Qed.

    (** *** Numbers *)

    Definition num_of_value (v : jval) (n : num) : Prop :=
      match n with NInt z => int_value v z | NFloat f => v = JFloat f end.

    Lemma int_value_inj v z z' : int_value v z -> int_value v z' -> z = z'.
    Proof. unfold int_value. intros [H|[[H ?]|[H ?]]] [H'|[[H' ?]|[H' ?]]]; congruence. Qed.

    Lemma int_value_float f z : ~ int_value (JFloat f) z.
    Proof. unfold int_value. intros [H|[[H _]|[H _]]]; discriminate H. Qed.

    Lemma r_in_bounds t b v n : num_of_value v n -> (r_in L t b v <-> in_bounds b n).
    Proof.
      destruct n as [z|f]; cbn; intros Hv; split.
      - intros [(f & -> & _)|(z' & Hz & H)]; [destruct (int_value_float _ _ Hv)|].
        rewrite (int_value_inj _ _ _ Hv Hz). exact H.
      - intros H. right. eauto.
      - subst v. intros [(f' & [= <-] & H)|(z' & Hz & _)]; [exact H|destruct (int_value_float _ _ Hz)].
      - intros H. left. eauto.
    Qed.

    Lemma in_low b n m : b_min b = Some m -> (in_bounds (low b) n <-> above b n m = true).
    Proof.
      intros Hm. rewrite in_bounds_spec. cbn [low b_min b_max]. split.
      - intros [H _]. exact (H m Hm).
      - intros H. split; [|discriminate]. intros m' Hm'. rewrite Hm in Hm'. injection Hm' as <-. exact H.
    Qed.

    Lemma in_high b n m : b_max b = Some m -> (in_bounds (high b) n <-> below b n m = true).
    Proof.
      intros Hm. rewrite in_bounds_spec. cbn [high b_min b_max]. split.
      - intros [_ H]. exact (H m Hm).
      - intros H. split; [discriminate|]. intros m' Hm'. rewrite Hm in Hm'. injection Hm' as <-. exact H.
    Qed.

    Lemma own_number t b v n r e : bounds_of t = Some b -> scalar t = true -> num_of_value v n ->
      number L t v ->
      (psaid r (Value t v) e <->
       (exists m, b_min b = Some m /\ above b n m = false /\ pone r (Value t v) (Below m) e) \/
       (exists m, b_max b = Some m /\ below b n m = false /\ pone r (Value t v) (Above m) e)).
    Proof.
      intros Hb Hs Hn N. rewrite said_scalar by exact Hs. unfold own, one. split.
      - intros (R0 & k & H & M). rewrite holds_number in H by exact Hb.
        destruct H as [(_ & C)|[(_ & _ & _ & C)|[(_ & _ & _ & _ & C)|[(m & -> & _ & Em & C)|(m & -> & _ & Em & C & _)]]]].
        + destruct (C (proj1 N)).
        + destruct (C I).
        + destruct (C I).
        + left. exists m. rewrite (r_in_bounds _ _ _ n Hn), (in_low _ _ m Em), not_true_iff_false in C. auto.
        + right. exists m. rewrite (r_in_bounds _ _ _ n Hn), (in_high _ _ m Em), not_true_iff_false in C. auto.
      - intros [(m & Em & C & R0 & M)|(m & Em & C & R0 & M)]; (split; [exact R0|]); eexists; (split; [|exact M]);
          rewrite holds_number by exact Hb.
        + right. right. right. left. exists m. split; [reflexivity|]. split; [exact N|]. split; [exact Em|].
          rewrite (r_in_bounds _ _ _ n Hn), (in_low _ _ m Em), C. discriminate.
        + right. right. right. right. exists m. split; [reflexivity|]. split; [exact N|]. split; [exact Em|].
          split; [|discriminate]. rewrite (r_in_bounds _ _ _ n Hn), (in_high _ _ m Em), C. discriminate.
    Qed.

    Lemma exact_bounds t b v n assign r : bounds_of t = Some b -> scalar t = true -> num_of_value v n ->
      number L t v -> exact assign (fun _ => False) ->
      exact (check_bounds b v n assign r) (psaid r (Value t v)).
    Proof.
      intros Hb Hs Hn N Ha. unfold check_bounds.
      assert (Elo : forall m, py_text (Value t v) (Below m) = MExpectedBound (op_min b) m v).
      { intros m. unfold py_text, symbol_min, op_min. rewrite Hb. reflexivity. }
      assert (Ehi : forall m, py_text (Value t v) (Above m) = MExpectedBound (op_max b) m v).
      { intros m. unfold py_text, symbol_max, op_max. rewrite Hb. reflexivity. }
      destruct (b_min b) as [m|] eqn:E1, (b_max b) as [m'|] eqn:E2.
      - apply exact_iff with (P := fun e =>
          (above b n m = false /\ pone r (Value t v) (Below m) e) \/
          (below b n m' = false /\ pone r (Value t v) (Above m') e)).
        + apply exact_bind.
          * destruct (above b n m).
            -- eapply exact_iff; [apply exact_ret|]. intros e. split; [tauto|]. intros [H _]. discriminate H.
            -- eapply exact_iff; [apply exact_report|]. intros e. unfold one. rewrite Elo. tauto.
          * intros _. destruct (below b n m').
            -- eapply exact_iff; [exact Ha|]. intros e. split; [tauto|]. intros [H _]. discriminate H.
            -- eapply exact_iff; [apply exact_report|]. intros e. unfold one. rewrite Ehi. tauto.
        + intros e. rewrite (own_number t b v n r e Hb Hs Hn N), E1, E2. split.
          * intros [H|H]; [left|right]; eauto.
          * intros [(m0 & [= <-] & H)|(m0 & [= <-] & H)]; auto.
      - apply exact_iff with (P := fun e => above b n m = false /\ pone r (Value t v) (Below m) e).
        + destruct (above b n m).
          * eapply exact_iff; [exact Ha|]. intros e. split; [tauto|]. intros [H _]. discriminate H.
          * eapply exact_iff; [apply exact_report|]. intros e. unfold one. rewrite Elo. tauto.
        + intros e. rewrite (own_number t b v n r e Hb Hs Hn N), E1, E2. split.
          * intros H. left. eauto.
          * intros [(m0 & [= <-] & H)|(m0 & H & _)]; [exact H|discriminate H].
      - apply exact_iff with (P := fun e => below b n m' = false /\ pone r (Value t v) (Above m') e).
        + destruct (below b n m').
          * eapply exact_iff; [exact Ha|]. intros e. split; [tauto|]. intros [H _]. discriminate H.
          * eapply exact_iff; [apply exact_report|]. intros e. unfold one. rewrite Ehi. tauto.
        + intros e. rewrite (own_number t b v n r e Hb Hs Hn N), E1, E2. split.
          * intros H. right. eauto.
          * intros [(m0 & H & _)|(m0 & [= <-] & H)]; [discriminate H|exact H].
      - eapply exact_iff; [exact Ha|]. intros e.
        rewrite (own_number t b v n r e Hb Hs Hn N), E1, E2. split; [tauto|].
        intros [(m0 & H & _)|(m0 & H & _)]; discriminate H.
    Qed.

    Lemma not_number t b v r : bounds_of t = Some b -> scalar t = true -> ~ r_kind L t v ->
      forall e, err_ref e = r /\ err_msg e = py_text (Value t v) BadKind <-> psaid r (Value t v) e.
    Proof.
      intros Hb Hs N e. symmetry. apply said_one with (k0 := BadKind).
      - intros r' s'. apply step_scalar. exact Hs.
      - intros k. rewrite holds_number by exact Hb. unfold number. split.
        + intros [(-> & _)|[(_ & _ & H & _)|[(_ & _ & H & _)|[(m & _ & [H _] & _)|(m & _ & [H _] & _)]]]];
            [reflexivity|destruct (N H)..].
        + intros ->. auto.
    Qed.

    Lemma int_value_of v z : int_value v z -> v = JInt z \/ exists b, v = JBool b.
    Proof. unfold int_value. intros [H|[[H _]|[H _]]]; eauto. Qed.

    Lemma bool_value b : int_value (JBool b) (b2z b).
    Proof. unfold int_value. destruct b; auto. Qed.

    Lemma exact_integer b v r : exact (parse_integer b v r) (psaid r (Value (TInt b) v)).
    Proof.
      unfold parse_integer. destruct v;
        try (eapply exact_iff; [apply exact_report|]; eapply (not_number (TInt b)); try reflexivity;
             intros [z H]; apply int_value_of in H as [H|[? H]]; discriminate H).
      - apply exact_bounds; try reflexivity; [apply bool_value| |apply exact_ret].
        split; [|cbn; auto]. cbn. eexists. apply bool_value.
      - apply exact_bounds; try reflexivity; [cbn; unfold int_value; auto| |apply exact_ret].
        split; [|cbn; auto]. cbn. unfold int_value. eauto.
    Qed.

    Lemma exact_to_float z : exact (to_float z) (fun _ => False).
    Proof. unfold to_float. destruct (float_of_Z z); [apply exact_ret|apply exact_fail]. Qed.

    Lemma exact_float b v r : exact (parse_float b v r) (psaid r (Value (TFloat b) v)).
    Proof.
      unfold parse_float. destruct v;
        try (eapply exact_iff; [apply exact_report|]; eapply (not_number (TFloat b)); try reflexivity;
             intros [[f H]|[z H]]; [discriminate H|apply int_value_of in H as [H|[? H]]; discriminate H]).
      - apply exact_bounds; try reflexivity; [apply bool_value| |apply exact_to_float].
        split; [|cbn; auto]. cbn. right. eexists. apply bool_value.
      - apply exact_bounds; try reflexivity; [cbn; unfold int_value; auto| |apply exact_to_float].
        split; [|cbn; auto]. cbn. unfold int_value. eauto.
      - apply exact_bounds; try reflexivity; [|apply exact_ret].
        split; [|cbn; auto]. cbn. eauto.
    Qed.

    (** *** References *)

    Lemma exact_reference n v r : exact (parse_reference G R n v r) (psaid r (Value (TClass n) v)).
    Proof.
      unfold parse_reference.
      destruct v; try (eapply exact_iff; [apply exact_report|]; intros e; symmetry;
        apply said_not_text; [exact kind_class|intros [? H]; discriminate H]).
      destruct (find_class G n) as [c|] eqn:Ec; [|apply exact_fail].
      destruct (lookup (attr (c_plural c)) R) as [reg|] eqn:Er; [|apply exact_fail].
      destruct (lookup s reg) as [a|] eqn:Ea.
      - eapply exact_iff; [apply exact_ret|]. intros e. symmetry. apply said_known; [exact kind_class|].
        exists c, reg, a. auto.
      - eapply exact_iff; [apply exact_report|]. intros e. symmetry. apply said_unknown; [exact kind_class|].
        intros (c' & reg' & a & H1 & H2 & H3).
        rewrite Ec in H1. injection H1 as <-. rewrite Er in H2. injection H2 as <-. congruence.
    Qed.

    (** *** Composite values *)

    Definition parses (p : parser) (v : jval) : Prop := forall t r, exact (p t r) (psaid r (Value t v)).

    Lemma exact_items ps l t r : Forall2 parses ps l -> forall i target,
      exact (parse_items ps t r i target)
        (fun e => exists j v, nth_error l j = Some v /\ psaid (below_ref r (dec_nat (i + j))) (Value t v) e).
    Proof.
      induction 1 as [|p v ps l Hp _ IH]; intros i target; cbn [parse_items].
      - eapply exact_iff; [apply exact_ret|]. intros e. split; [tauto|]. intros (j & v & H & _). destruct j; discriminate H.
      - eapply exact_iff; [apply exact_bind; [apply Hp|intros item; apply exact_full; apply IH]|].
        intros e. cbn beta. split.
        + intros [H|(j & w & Hj & H)].
          * exists 0, v. rewrite Nat.add_0_r. auto.
          * exists (Datatypes.S j), w. rewrite <- plus_n_Sm. auto.
        + intros ([|j] & w & Hj & H).
          * injection Hj as <-. rewrite Nat.add_0_r in H. auto.
          * right. exists j, w. rewrite <- plus_n_Sm in H. auto.
    Qed.

    Lemma exact_array t mn mx l ps v r : Forall2 parses ps l ->
      exact (parse_array t mn mx v ps r) (psaid r (Value (TArray t mn mx) (JArr l))).
    Proof.
      intros H. unfold parse_array. rewrite (Forall2_length _ _ _ H).
      destruct (match mn with Some m => (Z.of_nat (length l) <? m)%Z | None => false end) eqn:E1.
      { destruct mn as [m|]; [|discriminate E1]. apply Z.ltb_lt in E1.
        eapply exact_iff; [apply exact_report|]. intros e. symmetry.
        exact (said_small err_ref err_msg py_text G L known' kind_array r t (Some m) mx l m e eq_refl E1). }
      assert (H1 : forall n, mn = Some n -> (n <= Z.of_nat (length l))%Z).
      { intros n ->. apply Z.ltb_ge in E1. exact E1. }
      destruct (match mx with Some m => (m <? Z.of_nat (length l))%Z | None => false end) eqn:E2.
      { destruct mx as [m|]; [|discriminate E2]. apply Z.ltb_lt in E2.
        eapply exact_iff; [apply exact_report|]. intros e. symmetry.
        exact (said_big err_ref err_msg py_text G L known' kind_array r t mn (Some m) l m e H1 eq_refl E2). }
      assert (H2 : forall n, mx = Some n -> (Z.of_nat (length l) <= n)%Z).
      { intros n ->. apply Z.ltb_ge in E2. exact E2. }
      apply exact_bind_ret. eapply exact_iff; [apply exact_items; exact H|].
      intros e. rewrite said_items; [reflexivity|exact kind_array|split; assumption].
    Qed.

    Lemma exact_entries ps l t r : Forall2 (fun kp kv => fst kp = fst kv /\ parses (snd kp) (snd kv)) ps l ->
      forall target, exact (parse_entries X ps t r target)
        (fun e => exists k v, In (k, v) l /\ psaid (below_ref r (x_repr X k)) (Value t v) e).
    Proof.
      induction 1 as [|[k p] [k' v] ps l [E Hp] _ IH]; intros target; cbn [parse_entries].
      - eapply exact_iff; [apply exact_ret|]. intros e. split; [tauto|]. intros (k & v & [] & _).
      - cbn in E, Hp. subst k'.
        eapply exact_iff; [apply exact_bind; [apply Hp|intros item; apply exact_full; apply IH]|].
        intros e. cbn beta. split.
        + intros [H|(k' & w & Hj & H)]; [exists k, v|exists k', w]; cbn; auto.
        + intros (k' & w & [Hj|Hj] & H); [injection Hj as <- <-; auto|right; eauto].
    Qed.

    Definition about (r : str) (l : list (str * jval)) (p : prop) (e : perr) : Prop :=
      (p_optional p = false /\ (forall x, lookup (p_json p) l = Some x -> x = JNull) /\
       err_ref e = r /\ err_msg e = MMissingProperty (p_json p)) \/
      (exists v, lookup (p_json p) l = Some v /\ v <> JNull /\
         psaid (below_ref r (p_json p)) (Value (p_type p) v) e).

    Definition parse_members (o : members) (l : list (str * jval)) : Prop :=
      forall k, match lookup k o with
                | Some (v, p) => lookup k l = Some v /\ parses p v
                | None => lookup k l = None
                end.

    Lemma exact_property p o l r attrs : parse_members o l ->
      exact (parse_property p o r attrs) (about r l p).
    Proof.
      intros Hm. unfold parse_property. specialize (Hm (p_json p)).
      assert (Miss : (forall x, lookup (p_json p) l = Some x -> x = JNull) ->
        exact (if p_optional p then ret attrs else report r (MMissingProperty (p_json p)) attrs) (about r l p)).
      { intros Hn. unfold about. destruct (p_optional p).
        - eapply exact_iff; [apply exact_ret|]. intros e. split; [tauto|].
          intros [(H & _)|(v & Ev & Nv & _)]; [discriminate H|]. exact (Nv (Hn v Ev)).
        - eapply exact_iff; [apply exact_report|]. intros e. split; [left; tauto|].
          intros [(_ & _ & H)|(v & Ev & Nv & _)]; [exact H|]. destruct (Nv (Hn v Ev)). }
      destruct (lookup (p_json p) o) as [[v q]|]; [|apply Miss; congruence].
      destruct Hm as [Hl Hq].
      assert (Given : v <> JNull -> exact (mdo r0 <- q (p_type p) (slash r (p_json p));
          ret (match r0 with Some x => upsert (attr (p_name p)) x attrs | None => attrs end)) (about r l p)).
      { intros N. eapply exact_iff; [apply exact_bind_ret; apply Hq|]. intros e. unfold about. split.
        - intros H. right. exists v. auto.
        - intros [(_ & H & _)|(w & Ew & _ & H)]; [destruct (N (H v Hl))|].
          rewrite Hl in Ew. injection Ew as <-. exact H. }
      destruct v; try (apply Given; discriminate). apply Miss. congruence.
    Qed.

    Lemma exact_properties o l r : parse_members o l -> forall ps attrs,
      exact (parse_properties ps o r attrs) (fun e => exists p, In p ps /\ about r l p e).
    Proof.
      intros Hm. induction ps as [|p ps IH]; intros attrs; cbn [parse_properties].
      - eapply exact_iff; [apply exact_ret|]. intros e. split; [tauto|]. intros (p & [] & _).
      - eapply exact_iff; [apply exact_bind; [apply exact_property; exact Hm|intros attrs'; apply exact_full; apply IH]|].
        intros e. cbn beta. split.
        + intros [H|(q & Hq & H)]; [exists p|exists q]; cbn; auto.
        + intros (q & [<-|Hq] & H); eauto.
    Qed.

    Lemma about_said r ps l e : (exists p, In p ps /\ about r l p e) <-> psaid r (Object ps (JObj l)) e.
    Proof.
      rewrite said_object. unfold about, one. cbn [r_given py_rules py_text].
      split; intros (p & Hp & [(O & A & H)|H]); exists p; (split; [exact Hp|]); auto;
        left; (split; [exact O|]); (split; [|exact H]); intros x Hx.
      - intros C. exact (C (A x Hx)).
      - destruct x; try reflexivity; exfalso; apply (A _ Hx); discriminate.
    Qed.

    Lemma exact_composite ps v o r attrs : (forall l, v = JObj l -> parse_members o l) ->
      exact (composite_from ps v o r attrs) (psaid r (Object ps v)).
    Proof.
      intros Hm. unfold composite_from.
      destruct v; try (eapply exact_iff; [apply exact_report|]; intros e; symmetry;
        apply said_not_object; intros [? H]; discriminate H).
      eapply exact_iff; [|intros e; apply about_said].
      eapply exact_iff; [apply exact_bind; [apply exact_properties; apply Hm; reflexivity|intros []; apply exact_ret]|].
      cbn. tauto.
    Qed.

    Lemma parse_members_of l : Forall (fun kv => parses (parse_value X S G R (snd kv)) (snd kv)) l ->
      parse_members (map (fun kv => (fst kv, (snd kv, parse_value X S G R (snd kv)))) l) l.
    Proof.
      intros H k. induction H as [|[k' v] l Hv _ IH]; cbn; [reflexivity|].
      destruct (str_eqb k k'); [auto|exact IH].
    Qed.

    Lemma exact_value v : parses (parse_value X S G R v) v.
    Proof.
      induction v as [| | | | |l IH|l IH] using jval_ind'; intros t r; destruct t; cbn [parse_value];
        try apply exact_boolean; try apply exact_integer; try apply exact_float; try apply exact_string;
        try apply exact_path; try apply exact_time_zone; try apply exact_duration; try apply exact_reference;
        try (apply exact_dt; tauto);
        try (eapply exact_iff; [apply exact_report|]; intros e; symmetry;
             first [apply said_not_array; [exact kind_array|discriminate]
                   |apply said_not_map; [exact kind_map|intros [? H]; discriminate H]]);
        try (destruct (find_embed G name) as [em|] eqn:F; [|apply exact_fail];
             apply exact_bind_ret; eapply exact_iff; [|intros e; symmetry; apply said_embed; exact F];
             apply exact_composite; intros l' [=]).
      - apply exact_array. clear -IH. induction IH; constructor; auto.
      - apply exact_bind_ret. eapply exact_iff; [apply exact_entries with (l := l)|].
        + clear -IH. induction IH; constructor; auto.
        + intros e. rewrite said_map by exact kind_map. reflexivity.
      - subst l'. apply parse_members_of. exact IH.
    Qed.
  End Values.

  (** *** The registries *)

  Notation pown known := (own err_ref err_msg py_text L known).
  Notation psaid known := (said err_ref err_msg py_text G L known).

  Lemma exact_allocate c ref ids : forall reg heap,
    exact (allocate X c ref ids reg heap)
      (fun e => err_ref e = slash ref (registry_key (c_plural c)) /\
         exists id p, In id ids /\ c_id_pattern c = Some p /\ x_re_match X p id = false /\
           err_msg e = MIdMismatch p id).
  Proof.
    induction ids as [|id ids IH]; intros reg heap; cbn [allocate].
    - eapply exact_iff; [apply exact_ret|]. intros e. split; [tauto|]. intros (_ & id & p & [] & _).
    - set (st := fun es : errs => allocate X c ref ids _ _ es).
      assert (Hst : exact st _) by (intros es a es' H; exact (IH _ _ es a es' H)).
      destruct (c_id_pattern c) as [p|] eqn:Ep; [destruct (x_re_match X p id) eqn:Em|].
      + eapply exact_iff; [exact Hst|]. intros e. cbn beta. split; intros (Hr & id' & p' & Hi & H); (split; [exact Hr|]);
          exists id', p'.
        * split; [right; exact Hi|exact H].
        * destruct Hi as [<-|Hi]; [|auto]. destruct H as ([= <-] & H & _). congruence.
      + eapply exact_iff with (P := fun e => (err_ref e = slash ref (registry_key (c_plural c)) /\ err_msg e = MIdMismatch p id) \/ _ e).
        * pose proof (exact_bind _ _ _ _ (exact_report (slash ref (registry_key (c_plural c))) (MIdMismatch p id) tt)
            (fun _ => exact_full (reg, heap) _ _ Hst)) as HB. exact HB.
        * intros e. cbn beta. split.
          -- intros [(Hr & M)|(Hr & id' & p' & Hi & H)]; (split; [exact Hr|]).
             ++ exists id, p. cbn. auto.
             ++ exists id', p'. cbn. tauto.
          -- intros (Hr & id' & p' & [<-|Hi] & Hp & H).
             ++ injection Hp as <-. left. tauto.
             ++ right. split; [exact Hr|]. exists id', p'. auto.
      + eapply exact_iff; [exact Hst|]. intros e. cbn beta. split; intros (Hr & id' & p' & Hi & H & _); discriminate H.
  Qed.

  Definition about_registry (known : str -> str -> Prop) (r : str) (l : list (str * jval)) (cs : list cls) (e : perr) : Prop :=
    exists c x, In c cs /\ lookup (py_key c) l = Some x /\ x <> JNull /\
      pown known (below_ref r (py_key c)) (Registry c x) e.

  Lemma exact_preallocate kn R0 l r cs : forall R heap,
    exact (preallocate X cs (members_of X S G R0 (JObj l)) r R heap) (about_registry kn r l cs).
  Proof.
    induction cs as [|c cs IH]; intros R heap; cbn [preallocate].
    - eapply exact_iff; [apply exact_ret|]. intros e. split; [tauto|]. intros (c & x & [] & _).
    - apply exact_iff with (P := fun e =>
        (exists x, lookup (py_key c) l = Some x /\ x <> JNull /\
           pown kn (below_ref r (py_key c)) (Registry c x) e) \/ about_registry kn r l cs e).
      + apply exact_bind; [|intros []; apply exact_full; apply IH].
        rewrite lookup_members. fold (py_key c). destruct (lookup (py_key c) l) as [x|] eqn:E.
        * assert (Bad : ~ is_object x -> x <> JNull ->
            forall e, (err_ref e = slash r (py_key c) /\ err_msg e = MExpectedType (s_ "a dictionary") (type_of x)) <->
              exists x0, Some x = Some x0 /\ x0 <> JNull /\ pown kn (below_ref r (py_key c)) (Registry c x0) e).
          { intros N1 N2 e. split.
            - intros [Hr M]. exists x. split; [reflexivity|]. split; [exact N2|]. apply own_registry. split; [exact Hr|].
              left. split; [exact N1|exact M].
            - intros (x0 & [= <-] & _ & H). apply own_registry in H as [Hr [[_ M]|(m & ? & ? & -> & _)]].
              + split; [exact Hr|exact M].
              + destruct N1. eexists. reflexivity. }
          destruct x as [| | | | | |m];
            try (eapply exact_iff; [apply exact_report|apply Bad; [intros [? HH]; discriminate HH|discriminate]]).
          -- eapply exact_iff; [apply exact_ret|]. intros e. split; [tauto|]. intros (x & [= <-] & H & _). exact (H eq_refl).
          -- eapply exact_iff.
             ++ apply exact_bind; [apply exact_allocate|]. intros []. apply exact_ret.
             ++ intros e. cbn beta. split.
                ** intros [(Hr & id & p & Hi & Hp & Hm & M)|[]]. exists (JObj m). split; [reflexivity|].
                   split; [discriminate|]. apply own_registry. split; [exact Hr|]. right. exists m, id, p.
                   split; [reflexivity|]. split; [exact Hi|]. split; [exact Hp|]. split; [|exact M].
                   cbn. unfold py_id_ok. congruence.
                ** intros (x & [= <-] & _ & H). left. apply own_registry in H as [Hr [[N _]|(m' & id & p & [= <-] & Hi & Hp & N & M)]].
                   --- destruct N. eexists. reflexivity.
                   --- split; [exact Hr|]. exists id, p. split; [exact Hi|]. split; [exact Hp|]. split; [|exact M].
                       apply not_true_iff_false. exact N.
        * eapply exact_iff; [apply exact_ret|]. intros e. split; [tauto|]. intros (x & H & _). discriminate H.
      + intros e. unfold about_registry. split.
        * intros [(x & H)|(c' & x & Hc & H)]; [exists c, x|exists c', x]; cbn; tauto.
        * intros (c' & x & [<-|Hc] & H); [left; eauto|right; eauto].
  Qed.

  Section Second.
    Variable R : registries.
    Let known' := known G R.

    Lemma members_of_parse l : parse_members R (members_of X S G R (JObj l)) l.
    Proof. apply parse_members_of. apply Forall_forall. intros kv _. apply exact_value. Qed.

    Lemma exact_instances c reg ref m : forall heap,
      exact (parse_instances X S G c R reg ref m heap)
        (fun e => exists id v, In (id, v) m /\
           psaid known' (below_ref (below_ref ref (py_key c)) (x_repr X id)) (Object (c_props c) v) e).
    Proof.
      induction m as [|[id v] m IH]; intros heap; cbn [parse_instances].
      - eapply exact_iff; [apply exact_ret|]. intros e. split; [tauto|]. intros (id & v & [] & _).
      - destruct (lookup id reg) as [a|]; [|apply exact_fail].
        destruct (nth_error heap a) as [i|]; [|apply exact_fail].
        eapply exact_iff.
        + apply exact_bind; [apply (exact_composite R)|intros attrs; apply exact_full; apply IH].
          intros l ->. apply members_of_parse.
        + intros e. cbn beta. split.
          * intros [H|(id' & v' & Hi & H)]; [exists id, v|exists id', v']; cbn; auto.
          * intros (id' & v' & [Hi|Hi] & H); [injection Hi as <- <-; auto|right; eauto].
    Qed.

    Definition about_instance (r : str) (l : list (str * jval)) (cs : list cls) (e : perr) : Prop :=
      exists c m id v, In c cs /\ lookup (py_key c) l = Some (JObj m) /\ In (id, v) m /\
        psaid known' (below_ref (below_ref r (py_key c)) (x_repr X id)) (Object (c_props c) v) e.

    Lemma exact_registries l r cs : forall heap,
      exact (parse_registries X S G cs (members_of X S G R (JObj l)) r R heap) (about_instance r l cs).
    Proof.
      induction cs as [|c cs IH]; intros heap; cbn [parse_registries].
      - eapply exact_iff; [apply exact_ret|]. intros e. split; [tauto|]. intros (c & m & id & v & [] & _).
      - rewrite lookup_members. fold (py_key c).
        destruct (lookup (py_key c) l) as [x|] eqn:E.
        + destruct x as [| | | | | |m]; try apply exact_fail.
          destruct (lookup (attr (c_plural c)) R) as [reg|]; [|apply exact_fail].
          eapply exact_iff.
          * apply exact_bind_opt; [apply exact_instances|apply parse_instances_early|exact IH].
          * intros e. cbn beta. unfold about_instance. split.
            -- intros [(id & v & Hi & H)|(c' & m' & id & v & Hc & H)].
               ++ exists c, m, id, v. cbn. auto.
               ++ exists c', m', id, v. cbn. tauto.
            -- intros (c' & m' & id & v & [<-|Hc] & El & H).
               ++ left. rewrite E in El. injection El as <-. eauto.
               ++ right. exists c', m', id, v. auto.
        + eapply exact_iff; [apply IH|]. intros e. unfold about_instance. split.
          * intros (c' & m' & id & v & Hc & H). exists c', m', id, v. cbn. tauto.
          * intros (c' & m' & id & v & [<-|Hc] & El & H); [congruence|]. exists c', m', id, v. auto.
    Qed.
  End Second.

  Lemma said_mono (k1 k2 : str -> str -> Prop) r s e : (forall n id, k1 n id <-> k2 n id) ->
    psaid k1 r s e -> psaid k2 r s e.
  Proof.
    intros H (s' & k & [W Hk] & M). exists s', k. split; [|exact M]. split; [exact W|].
    destruct s' as [v|c v|ps v|t v], k; cbn in Hk |- *; auto. rewrite <- H. exact Hk.
  Qed.

  Hypothesis Hregs : registries_distinct G.

  Notation ptells := (tells err_ref err_msg py_text G L).
  Notation ptells_registry := (tells_registry err_ref err_msg py_text G L).

  Lemma graph_from_errors w ref (es : errs) a es' :
    json_wf w -> (0 < py_cap es)%Z -> py_values es = [] ->
    graph_from X S G w ref es = Ok (a, es') ->
    (forall e, In e (py_values es') -> ptells ref w e) /\
    (room es' ->
       (forall e, ptells_registry ref w e -> In e (py_values es')) /\
       ((exists e, ptells_registry ref w e) -> forall e, In e (py_values es') -> ptells_registry ref w e) /\
       ((forall e, ~ ptells_registry ref w e) -> forall e, ptells ref w e -> In e (py_values es'))).
  Proof.
    intros W C0 E0 H.
    assert (Ro : room es) by (unfold room; rewrite E0; cbn; lia).
    unfold graph_from in H. rewrite (room_not_full _ Ro) in H.
    set (kn := listed_in G L w).
    assert (Tell : forall e, ptells ref w e <-> psaid kn ref (Whole w) e) by reflexivity.
    assert (TellR : forall e, ptells_registry ref w e <->
      exists l c x, w = JObj l /\ In c (g_classes G) /\ lookup (py_key c) l = Some x /\ x <> JNull /\
        pown kn (below_ref ref (py_key c)) (Registry c x) e).
    { intros e. apply said_registries. }
    assert (Incl : forall e, ptells_registry ref w e -> ptells ref w e).
    { intros e (s & k & _ & HH). exists s, k. exact HH. }
    (* Not an object. *)
    assert (Bad : ~ is_object w -> Ok (None, add ref (MExpectedType (s_ "a dictionary") (type_of w)) es) = Ok (a, es') ->
      (forall e, In e (py_values es') -> ptells ref w e) /\
      (room es' ->
         (forall e, ptells_registry ref w e -> In e (py_values es')) /\
         ((exists e, ptells_registry ref w e) -> forall e, In e (py_values es') -> ptells_registry ref w e) /\
         ((forall e, ~ ptells_registry ref w e) -> forall e, ptells ref w e -> In e (py_values es')))).
    { intros N Eq. destruct (exact_report ref (MExpectedType (s_ "a dictionary") (type_of w)) (@None pygraph) es a es' Eq)
        as (_ & S1 & C1).
      assert (K : forall e, psaid kn ref (Whole w) e <->
        err_ref e = ref /\ err_msg e = MExpectedType (s_ "a dictionary") (type_of w)).
      { intros e. rewrite said_whole, said_not_object by exact N. split.
        - intros [HH|(l & c & x & -> & _)]; [exact HH|]. destruct N. eexists. reflexivity.
        - intros HH. left. exact HH. }
      assert (NR : forall e, ~ ptells_registry ref w e).
      { intros e HH. apply TellR in HH as (l & ? & ? & -> & _). apply N. eexists. reflexivity. }
      split; [|intros Rm; split; [|split]].
      - intros e He. apply Tell, K. apply S1 in He as [He|He]; [|exact He]. rewrite E0 in He. destruct He.
      - intros e HH. destruct (NR e HH).
      - intros [e HH]. destruct (NR e HH).
      - intros _ e HH. apply C1; [exact Rm|]. apply K. exact HH. }
    destruct w as [| | | | | |l]; try (apply Bad; [intros [? HH]; discriminate HH|exact H]). clear Bad.
    unfold mbind at 1 in H.
    destruct (preallocate X (g_classes G) _ ref _ [] es) as [[p es1]|] eqn:P; [|discriminate H].
    destruct (exact_preallocate kn _ _ _ _ _ _ _ _ _ P) as (G1 & S1 & C1).
    rewrite E0 in S1.
    assert (AR : forall e, about_registry kn ref l (g_classes G) e <-> ptells_registry ref (JObj l) e).
    { intros e. rewrite TellR. unfold about_registry. split.
      - intros (c & x & HH). exists l, c, x. tauto.
      - intros (l' & c & x & [= <-] & HH). exists c, x. exact HH. }
    assert (First : es' = es1 ->  (py_full es1 = true \/ py_values es1 <> []) ->
      (forall e, In e (py_values es') -> ptells ref (JObj l) e) /\
      (room es' ->
         (forall e, ptells_registry ref (JObj l) e -> In e (py_values es')) /\
         ((exists e, ptells_registry ref (JObj l) e) -> forall e, In e (py_values es') -> ptells_registry ref (JObj l) e) /\
         ((forall e, ~ ptells_registry ref (JObj l) e) -> forall e, ptells ref (JObj l) e -> In e (py_values es')))).
    { intros -> NE. split; [|intros Rm; split; [|split]].
      - intros e He. apply Incl, AR. apply S1 in He as [[]|He]. exact He.
      - intros e HH. apply (C1 Rm). apply AR. exact HH.
      - intros _ e He. apply AR. apply S1 in He as [[]|He]. exact He.
      - intros NR. exfalso. destruct NE as [F|NE]; [rewrite (room_not_full _ Rm) in F; discriminate F|].
        destruct (py_values es1) as [|e0 l0] eqn:V; [apply NE; reflexivity|].
        destruct (S1 e0 (or_introl eq_refl)) as [[]|HH]. apply (NR e0). apply AR. exact HH. }
    destruct p as [[R heap]|].
    2:{ injection H as <- <-. apply First; [reflexivity|]. left. eapply preallocate_early. exact P. }
    destruct (_ && _) eqn:B in H.
    { injection H as <- <-. apply First; [reflexivity|]. right. apply andb_prop in B as [_ B].
      unfold py_empty in B. intros V. rewrite V in B. discriminate B. }
    clear First.
    assert (V1 : py_values es1 = []).
    { destruct (g_classes G) as [|c cs].
      - injection P as _ _ <-. exact E0.
      - cbn [andb] in B. apply negb_false_iff in B. unfold py_empty in B.
        destruct (py_values es1); [reflexivity|discriminate B]. }
    assert (es1 = es).
    { destruct G1 as [Ec _]. destruct es as [c0 v0], es1 as [c1 v1]. cbn in *. congruence. }
    subst es1.
    pose proof (preallocate_clean X S G [] l ref (g_classes G) _ _ es _ Ro P) as Cl.
    pose proof (preallocate_yields X S G [] l ref (g_classes G) (fun k m => json_wf_obj l k m W) Cl
      (empty_registries G) [] es Ro) as Y.
    rewrite P in Y. injection Y as ER EH. cbn [length] in ER.
    destruct Hregs as (Hnames & Hattrs & Hkeys).
    assert (Hat : regs_at l R (g_classes G) 0).
    { rewrite ER. apply regs_fold_at; [exact Hattrs|]. intros c Hc. apply empty_registries_lookup. exact Hc. }
    assert (Kn : forall n id, known G R n id <-> kn n id).
    { intros n id. rewrite (known_listed G l R n id Hat). unfold kn, listed_in. split.
      - intros HH. exists l. auto.
      - intros (l' & [= <-] & HH). exact HH. }
    assert (NR : forall e, ~ ptells_registry ref (JObj l) e).
    { intros e HH. apply AR in HH. apply (C1 Ro) in HH. rewrite V1 in HH. exact HH. }
    assert (F : exact (mdo r <- parse_registries X S G (g_classes G) (members_of X S G R (JObj l)) ref R heap;
                match r with
                | None => ret None
                | Some heap' =>
                    mdo (early, attrs) <- parse_properties (g_props G) (members_of X S G R (JObj l)) ref
                                            (placeholder (g_props G));
                    if early : bool then ret None
                    else fun es =>
                      if py_empty es then Ok (Some (PyGraph attrs R heap'), es)
                      else Ok (None, es)
                end) (fun e => about_instance R ref l (g_classes G) e \/
                  psaid (known G R) ref (Object (g_props G) (JObj l)) e)).
    { apply exact_bind_opt; [apply exact_registries|apply parse_registries_early|].
      intros heap'. eapply exact_iff.
      - apply exact_bind; [apply (exact_properties R); apply members_of_parse|].
        intros [early attrs]. cbn beta iota.
        assert (U : exact (if early : bool then ret None
                    else fun es =>
                      if py_empty es then Ok (Some (PyGraph attrs R heap'), es)
                      else Ok (None, es)) (fun _ => False)).
        { destruct early; [apply exact_ret|]. intros es0 b es2 HH.
          destruct (py_empty es0); injection HH as <- <-; (split; [apply grown_refl|]); (split; [auto|intros _ ? []]). }
        exact U.
      - intros e. cbn beta. rewrite (about_said R). tauto. }
    destruct (F _ _ _ H) as (_ & S2 & C2). rewrite E0 in S2.
    assert (All : forall e, (about_instance R ref l (g_classes G) e \/
                  psaid (known G R) ref (Object (g_props G) (JObj l)) e) <-> ptells ref (JObj l) e).
    { intros e. rewrite Tell, said_whole. split.
      - intros [(c & m & id & v & Hc & El & Hi & HH)|HH].
        + right. exists l, c, (JObj m). split; [reflexivity|]. split; [exact Hc|]. split; [exact El|]. split; [discriminate|].
          rewrite said_registry. right. exists m, id, v. split; [reflexivity|]. split; [exact Hi|].
          eapply said_mono; [exact Kn|exact HH].
        + left. eapply said_mono; [exact Kn|exact HH].
      - intros [HH|(l' & c & x & [= <-] & Hc & El & Gx & HH)].
        + right. eapply said_mono; [|exact HH]. intros n id. symmetry. apply Kn.
        + left. rewrite said_registry in HH. destruct HH as [HH|(m & id & v & -> & Hi & HH)].
          * exfalso. apply (NR e). apply TellR. exists l, c, x. auto.
          * exists c, m, id, v. split; [exact Hc|]. split; [exact El|]. split; [exact Hi|].
            eapply said_mono; [|exact HH]. intros n id'. symmetry. apply Kn. }
    split; [|intros Rm; split; [|split]].
    - intros e He. apply All. apply S2 in He as [[]|He]. exact He.
    - intros e HH. destruct (NR e HH).
    - intros [e HH]. destruct (NR e HH).
    - intros _ e HH. apply (C2 Rm). apply All. exact HH.
  Qed.
End Py.
