(** The validation for a target language finds the clashes (C36-C38). *)
From Coq Require Import String List Arith NArith ZArith Bool Lia.
From Verif Require Import Base M_Naming M_Schema M_Strftime M_Walk M_Validate M_LangValid S_Conform S_LangValid P_Naming P_Common P_TypeGraph P_ValidateDoc.
Import ListNotations.
Open Scope list_scope.
Local Open Scope nat_scope.

(** * The conversions *)

Lemma as_attribute_lowered n i : as_attribute n = Ok i <-> lowered n i.
Proof.
  unfold as_attribute, lowered. destruct n as [|c n]; [split; [discriminate | intros [H _]; congruence]|].
  split; [intros [= <-]; split; [discriminate | reflexivity] | intros [_ ->]; reflexivity].
Qed.

Lemma capitalize_parts_iff ps qs :
  capitalize_parts ps = Ok qs <-> (forall p, In p ps -> p <> []) /\ qs = map with_capital ps.
Proof.
  revert qs. induction ps as [|p ps IH]; intros qs; cbn.
  - split; [intros [= <-]; split; [easy | reflexivity] | intros [_ ->]; reflexivity].
  - destruct p as [|c r]; cbn.
    + split; [discriminate|]. intros [H _]. exfalso. apply (H []); auto.
    + destruct (capitalize_parts ps) as [qs'|e]; cbn.
      * destruct (IH qs') as [A _]. destruct (A eq_refl) as [A1 A2].
        split; [intros [= <-]; split; [intros p [<- | Hp]; [discriminate | auto] | now rewrite A2] | intros [_ ->]; now rewrite A2].
      * split; [discriminate|]. intros [H _]. destruct (IH (map with_capital ps)) as [_ B].
        assert (C : Raise e = Ok (map with_capital ps)) by (apply B; split; [intros p Hp; apply H; now right | reflexivity]). discriminate.
Qed.

Lemma ucamel_upper n i : ucamel_case n = Ok i <-> upper_camel n i.
Proof.
  assert (S : forall parts, parts <> [] -> (forall p, In p parts -> p <> [] /\ ~ In 95%N p) -> split_on 95%N (join (s_ "_") parts) = parts).
  { intros parts Hne Hp. induction parts as [|p parts IH]; [congruence|]. destruct parts as [|q parts].
    - cbn. apply split_on_id. apply Hp. now left.
    - change (join (s_ "_") (p :: q :: parts)) with (p ++ 95%N :: join (s_ "_") (q :: parts)).
      assert (E : forall a b, ~ In 95%N a -> split_on 95%N (a ++ 95%N :: b) = a :: split_on 95%N b).
      { clear. induction a as [|x a IH]; intros b H; cbn; [reflexivity|].
        destruct (N.eqb_spec x 95); [exfalso; apply H; left; congruence|]. rewrite IH; [reflexivity|]. intros C; apply H; now right. }
      rewrite E by (apply Hp; now left). f_equal. apply IH; [discriminate|]. intros x Hx. apply Hp. now right. }
  split.
  - intros H. exists (split_on 95%N n). destruct n as [|c n]; [discriminate|]. cbv beta delta [ucamel_case] iota in H.
    unfold split_identifier, underscore in H. remember (c :: n) as m eqn:Em.
    destruct (capitalize_parts (split_on 95%N m)) as [qs|e] eqn:Eq; cbn [bind] in H; [|discriminate].
    apply capitalize_parts_iff in Eq. destruct Eq as [Hp ->].
    split; [symmetry; apply split_on_join|]. split; [destruct (split_on_cons 95%N m) as (p & ps & ->); discriminate|].
    split; [intros p Hin; split; [auto | now apply split_on_no_sep in Hin]|].
    destruct (concat (map with_capital (split_on 95%N m))) as [|d r]; [discriminate|].
    destruct (N.eqb d (upper_c d)); [now injection H | discriminate].
  - intros (parts & -> & Hne & Hp & ->). unfold ucamel_case, split_identifier, underscore. rewrite S by assumption.
    destruct parts as [|[|c r] parts]; [congruence | destruct (Hp [] (or_introl eq_refl)); congruence|].
    assert (E : capitalize_parts ((c :: r) :: parts) = Ok (map with_capital ((c :: r) :: parts))).
    { apply capitalize_parts_iff. split; [intros p H; now apply Hp | reflexivity]. }
    rewrite E. cbn [bind]. cbn [map with_capital concat app]. rewrite upper_c_idem, N.eqb_refl.
    destruct parts as [|q parts]; reflexivity.
Qed.

Lemma initial_upper_iff n : initial_upper n = true <-> exists c r, n = c :: r /\ (65 <= c <= 90)%N.
Proof.
  destruct n as [|c r]; cbn; [split; [discriminate | intros (? & ? & ? & _); discriminate]|].
  unfold is_upper. split.
  - intros H. apply andb_true_iff in H. destruct H as [A B]. apply N.leb_le in A, B. exists c, r. split; [reflexivity | lia].
  - intros (c' & r' & E & H). injection E as <- <-. apply andb_true_iff. split; apply N.leb_le; lia.
Qed.

Lemma as_composite_camel n i : as_composite n = Ok i <-> camel_composite n i.
Proof.
  unfold as_composite, camel_composite. rewrite <- ucamel_upper, <- initial_upper_iff.
  destruct (initial_upper n); split; intros H; try tauto; [discriminate | destruct H; discriminate].
Qed.

(** * Lists *)

Definition pairs (conv : str -> str -> Prop) (l fs : list (str * str)) : Prop :=
  Forall2 (fun nr ir => conv (fst nr) (fst ir) /\ snd nr = snd ir) l fs.

Lemma pairs_once conv l fs i r : pairs conv l fs -> In (i, r) fs -> once conv l i r.
Proof.
  induction 1 as [|[n r'] [i' r''] l fs [H1 H2] _ IH]; cbn in *; [contradiction|]. subst r''.
  intros [E | Hin]; [injection E as <- <-; exists n; split; [now left | assumption]|].
  destruct (IH Hin) as (m & Hm & Hc). exists m. split; [now right | assumption].
Qed.
Lemma pairs_twice conv l a b c i o r : pairs conv l (a ++ (i, o) :: b ++ (i, r) :: c) -> twice conv l i o r.
Proof.
  intros H. apply Forall2_app_inv_r in H. destruct H as (la & l1 & Ha & H & ->).
  inversion H as [|[m o'] ? l2 ? [H1 H2] H3]; subst. cbn in H1, H2. subst o'.
  apply Forall2_app_inv_r in H3. destruct H3 as (lb & l3 & Hb & H3 & ->).
  inversion H3 as [|[n r'] ? l4 ? [H4 H5] H6]; subst. cbn in H4, H5. subst r'.
  exists la, lb, l4, m, n. auto.
Qed.
Lemma pairs_app conv l1 l2 f1 f2 : pairs conv l1 f1 -> pairs conv l2 f2 -> pairs conv (l1 ++ l2) (f1 ++ f2).
Proof. apply Forall2_app. Qed.
Lemma pairs_ids conv l fs : pairs conv l fs -> Forall2 conv (map fst l) (map fst fs).
Proof. induction 1 as [|? ? ? ? [H _]]; cbn; constructor; auto. Qed.

Lemma lookup_upsert_In {A} k (v : A) m n r : In (n, r) (upsert k v m) -> (n, r) = (k, v) \/ In (n, r) m.
Proof.
  induction m as [|[k' v'] m IH]; cbn; [intros [<- | []]; auto|]. destruct (str_eqb k k'); cbn; intros [E | H]; auto.
  destruct (IH H); auto.
Qed.
Lemma lookup_keys {A} k (m : list (str * A)) : lookup k m = None <-> ~ In k (keys m).
Proof.
  induction m as [|[k' v'] m IH]; cbn; [firstorder|]. destruct (str_eqb k k') eqn:E.
  - apply str_eqb_eq in E. subst. split; [discriminate | firstorder].
  - rewrite IH. apply str_eqb_neq in E. split; [intros H [H' | H']; [congruence | auto] | firstorder].
Qed.

(** * A list of identifiers *)

Section Language.
  Variable keywords : list str.
  Variable field_name composite_name : str -> res str.
  Variable own : str.
  Variable field composite : str -> str -> Prop.
  Hypothesis Hfield : forall n i, field_name n = Ok i <-> field n i.
  Hypothesis Hcomposite : forall n i, composite_name n = Ok i <-> composite n i.

  Lemma field_unique n i j : field n i -> field n j -> i = j.
  Proof. rewrite <- !Hfield. congruence. Qed.
  Lemma composite_unique n i j : composite n i -> composite n j -> i = j.
  Proof. rewrite <- !Hcomposite. congruence. Qed.

  Lemma converted_unique (conv : str -> str -> Prop) names a b : (forall n i j, conv n i -> conv n j -> i = j) ->
    Forall2 conv names a -> Forall2 conv names b -> a = b.
  Proof.
    intros U H. revert b. induction H as [|n i names a H1 _ IH]; intros b Hb; inversion Hb; subst; [reflexivity|].
    f_equal; eauto.
  Qed.

  Lemma fields_of_pairs ps fs : fields_of field_name ps = Ok fs <-> pairs field (of_props ps) fs.
  Proof.
    unfold fields_of. rewrite mapM_Ok. unfold pairs, of_props. split.
    - induction 1 as [|p f ps fs H _ IH]; cbn; constructor; [|assumption]. cbn.
      destruct (field_name (p_name p)) as [n|e] eqn:E; cbn in H; [|discriminate]. injection H as <-. cbn.
      split; [now apply Hfield | reflexivity].
    - revert fs. induction ps as [|p ps IH]; cbn; intros fs H; inversion H as [|? f ? fs' [H1 H2] H3]; subst; constructor; [|auto].
      cbn in H1, H2. apply Hfield in H1. rewrite H1. cbn. rewrite H2. now destruct f.
  Qed.

  Definition clean (ids : list str) : Prop := NoDup ids /\ forall i, In i ids -> ~ In i keywords.

  Lemma keyword_nil {A} i (e : A) : (if mem i keywords then [e] else []) = [] <-> ~ In i keywords.
  Proof.
    destruct (mem i keywords) eqn:E.
    - apply mem_In in E. split; [discriminate | contradiction].
    - apply mem_not_In in E. tauto.
  Qed.

  Lemma validate_fields_nil fs : forall seen,
    validate_fields keywords seen fs = [] <-> clean (map fst fs) /\ forall i, In i (map fst fs) -> ~ In i (keys seen).
  Proof.
    induction fs as [|[n r] fs IH]; intros seen; cbn [validate_fields map fst].
    - split; [intros _; split; [split; [constructor | easy] | easy] | reflexivity].
    - split.
      + intros H. apply app_eq_nil in H. destruct H as [H1 H2]. apply keyword_nil in H1.
        destruct (lookup n seen) as [o|] eqn:E; [discriminate|]. apply lookup_keys in E.
        apply IH in H2. destruct H2 as [[A1 A2] A3].
        assert (Hn : ~ In n (map fst fs)) by (intros Hin; apply (A3 n Hin); apply keys_upsert_In; now left).
        split; [split; [now constructor | intros i [<- | Hi]; auto]|].
        intros i [<- | Hi]; [assumption|]. intros C. apply (A3 i Hi). apply keys_upsert_In. now right.
      + intros [[A1 A2] A3]. inversion A1 as [|? ? Hn Hd]; subst.
        assert (K := A2 n (or_introl eq_refl)). apply mem_not_In in K. rewrite K. cbn [app].
        assert (E : lookup n seen = None) by (apply lookup_keys, A3; now left). rewrite E. apply IH.
        split; [split; [assumption | intros i Hi; apply A2; now right]|].
        intros i Hi C. apply keys_upsert_In in C. destruct C as [-> | C]; [contradiction|]. apply (A3 i); [now right | assumption].
  Qed.

  (** The errors in the fields *)
  Lemma validate_fields_real e : forall fs pre seen, (forall n r, In (n, r) seen -> In (n, r) pre) ->
    In e (validate_fields keywords seen fs) ->
    (exists n, le_kind e = KKeyword n /\ In n keywords /\ In (n, le_ref e) fs) \/
    (exists n o a b c, le_kind e = KConflict n o /\ pre ++ fs = a ++ (n, o) :: b ++ (n, le_ref e) :: c).
  Proof.
    induction fs as [|[n r] fs IH]; intros pre seen Hs H; cbn [validate_fields] in H; [contradiction|].
    assert (T : forall seen', (forall m q, In (m, q) seen' -> In (m, q) (pre ++ [(n, r)])) ->
      In e (validate_fields keywords seen' fs) ->
      (exists m, le_kind e = KKeyword m /\ In m keywords /\ In (m, le_ref e) ((n, r) :: fs)) \/
      (exists m o a b c, le_kind e = KConflict m o /\ pre ++ (n, r) :: fs = a ++ (m, o) :: b ++ (m, le_ref e) :: c)).
    { intros seen' Hs' Hin. destruct (IH _ seen' Hs' Hin) as [(m & E & Hk & Hm) | (m & o & a & b & c & E & Hm)].
      - left. exists m. split; [assumption|]. split; [assumption | now right].
      - right. exists m, o, a, b, c. split; [assumption|]. rewrite <- app_assoc in Hm. exact Hm. }
    apply in_app_or in H. destruct H as [H | H].
    - destruct (mem n keywords) eqn:K; [|contradiction]. destruct H as [<- | []]. left. exists n.
      split; [reflexivity|]. split; [now apply mem_In | now left].
    - destruct (lookup n seen) as [o|] eqn:E.
      + destruct H as [<- | H].
        * right. apply lookup_In, Hs, in_split in E. destruct E as (a & b & ->).
          exists n, o, a, b, fs. split; [reflexivity|]. cbn. rewrite <- app_assoc. reflexivity.
        * apply (T seen); [|assumption]. intros m q Hq. apply in_or_app. left. now apply Hs.
      + apply T with (2 := H). intros m q Hq. apply lookup_upsert_In in Hq.
        apply in_or_app. destruct Hq as [Hq | Hq]; [right; left; congruence | left; now apply Hs].
  Qed.

  (** ** Registries *)

  Lemma validate_registries_nil pm cs : forall seen,
    validate_registries keywords field_name pm seen cs = Ok [] <->
    exists ids, Forall2 field (map c_plural cs) ids /\ clean ids /\
      (forall i, In i ids -> ~ In i (keys pm)) /\ forall i, In i ids -> ~ In i (keys seen).
  Proof.
    induction cs as [|c cs IH]; intros seen; cbn [validate_registries map].
    - split; [intros _; exists []; repeat split; try constructor; easy | reflexivity].
    - destruct (field_name (c_plural c)) as [n|e] eqn:E; cbn [bind].
      2: { split; [discriminate|]. intros (ids & H & _). inversion H as [|? i ? ? H1 H2]; subst. apply Hfield in H1. congruence. }
      apply Hfield in E. split.
      + intros H. destruct (lookup n seen) as [o|] eqn:L.
        { destruct (validate_registries keywords field_name pm seen cs); cbn [bind] in H; [|discriminate].
          injection H as H. apply app_eq_nil in H. destruct H as [_ H]. apply app_eq_nil in H. destruct H as [_ H]. discriminate. }
        destruct (validate_registries keywords field_name pm (upsert n (c_ref c) seen) cs) as [errs|] eqn:R; cbn [bind] in H; [|discriminate].
        injection H as H. apply app_eq_nil in H. destruct H as [H1 H]. apply app_eq_nil in H. destruct H as [H2 ->].
        apply keyword_nil in H1. destruct (lookup n pm) eqn:P; [discriminate|]. apply lookup_keys in P, L.
        apply IH in R. destruct R as (ids & A1 & [A2 A3] & A4 & A5). exists (n :: ids).
        assert (Hn : ~ In n ids) by (intros Hin; apply (A5 n Hin); apply keys_upsert_In; now left).
        split; [now constructor|]. split; [split; [now constructor | intros i [<- | Hi]; auto]|].
        split; [intros i [<- | Hi]; auto|]. intros i [<- | Hi]; [assumption|]. intros C. apply (A5 i Hi). apply keys_upsert_In. now right.
      + intros (ids & A1 & [A2 A3] & A4 & A5). inversion A1 as [|? i ? ids' H1 H2]; subst.
        assert (Ei : i = n) by (eapply field_unique; eauto). subst i. inversion A2 as [|? ? Hn Hd]; subst.
        assert (K := A3 n (or_introl eq_refl)). apply mem_not_In in K. rewrite K.
        assert (P : lookup n pm = None) by (apply lookup_keys, A4; now left). rewrite P.
        assert (L : lookup n seen = None) by (apply lookup_keys, A5; now left). rewrite L.
        assert (R : validate_registries keywords field_name pm (upsert n (c_ref c) seen) cs = Ok []).
        { apply IH. exists ids'. split; [assumption|]. split; [split; [assumption | intros i Hi; apply A3; now right]|].
          split; [intros i Hi; apply A4; now right|]. intros i Hi C. apply keys_upsert_In in C.
          destruct C as [-> | C]; [contradiction|]. apply (A5 i); [now right | assumption]. }
        rewrite R. reflexivity.
  Qed.

  Lemma validate_registries_real pm e : forall cs pre seen errs, (forall n r, In (n, r) seen -> In (n, r) pre) ->
    validate_registries keywords field_name pm seen cs = Ok errs ->
    exists fs, pairs field (map (fun c => (c_plural c, c_ref c)) cs) fs /\
      (In e errs ->
       (exists n, le_kind e = KRegistryKeyword n /\ In n keywords /\ In (n, le_ref e) fs) \/
       (exists n o, le_kind e = KRegistryProperty n o /\ In (n, o) pm /\ In (n, le_ref e) fs) \/
       (exists n o a b c, le_kind e = KRegistryRegistry n o /\ pre ++ fs = a ++ (n, o) :: b ++ (n, le_ref e) :: c)).
  Proof.
    induction cs as [|c cs IH]; intros pre seen errs Hs H; cbn [validate_registries map] in *.
    - injection H as <-. exists []. split; [constructor | contradiction].
    - destruct (field_name (c_plural c)) as [n|] eqn:E; cbn [bind] in H; [|discriminate]. apply Hfield in E.
      destruct (lookup n seen) as [o|] eqn:L.
      + destruct (validate_registries keywords field_name pm seen cs) as [errs'|] eqn:R; cbn [bind] in H; [|discriminate].
        injection H as <-.
        destruct (IH (pre ++ [(n, c_ref c)]) seen errs') as (fs & Hp & Hr);
          [intros m q Hq; apply in_or_app; left; now apply Hs | exact R|].
        exists ((n, c_ref c) :: fs). split; [now constructor|]. intros Hin. rewrite !in_app_iff in Hin.
        destruct Hin as [Hin | [Hin | [Hin | Hin]]].
        * destruct (mem n keywords) eqn:K; [|contradiction]. destruct Hin as [<- | []]. left. exists n.
          split; [reflexivity|]. split; [now apply mem_In | now left].
        * destruct (lookup n pm) as [o'|] eqn:P; [|contradiction]. destruct Hin as [<- | []]. right. left. exists n, o'.
          split; [reflexivity|]. split; [now apply lookup_In in P | now left].
        * subst e. right. right. apply lookup_In, Hs, in_split in L. destruct L as (a & b & ->).
          exists n, o, a, b, fs. split; [reflexivity|]. cbn. rewrite <- app_assoc. reflexivity.
        * destruct (Hr Hin) as [(m & H1 & H2 & H3) | [(m & q & H1 & H2 & H3) | (m & q & a & b & d & H1 & H2)]].
          -- left. exists m. split; [assumption|]. split; [assumption | now right].
          -- right. left. exists m, q. split; [assumption|]. split; [assumption | now right].
          -- right. right. exists m, q, a, b, d. split; [assumption|]. rewrite <- app_assoc in H2. exact H2.
      + destruct (validate_registries keywords field_name pm (upsert n (c_ref c) seen) cs) as [errs'|] eqn:R; cbn [bind] in H; [|discriminate].
        injection H as <-.
        destruct (IH (pre ++ [(n, c_ref c)]) (upsert n (c_ref c) seen) errs') as (fs & Hp & Hr); [|exact R|].
        { intros m q Hq. apply lookup_upsert_In in Hq. apply in_or_app. destruct Hq as [Hq | Hq]; [right; left; congruence | left; now apply Hs]. }
        exists ((n, c_ref c) :: fs). split; [now constructor|]. intros Hin. rewrite !in_app_iff in Hin.
        destruct Hin as [Hin | [Hin | Hin]].
        * destruct (mem n keywords) eqn:K; [|contradiction]. destruct Hin as [<- | []]. left. exists n.
          split; [reflexivity|]. split; [now apply mem_In | now left].
        * destruct (lookup n pm) as [o'|] eqn:P; [|contradiction]. destruct Hin as [<- | []]. right. left. exists n, o'.
          split; [reflexivity|]. split; [now apply lookup_In in P | now left].
        * destruct (Hr Hin) as [(m & H1 & H2 & H3) | [(m & q & H1 & H2 & H3) | (m & q & a & b & d & H1 & H2)]].
          -- left. exists m. split; [assumption|]. split; [assumption | now right].
          -- right. left. exists m, q. split; [assumption|]. split; [assumption | now right].
          -- right. right. exists m, q, a, b, d. split; [assumption|]. rewrite <- app_assoc in H2. exact H2.
  Qed.

  (** ** Composites *)

  Lemma validate_composites_nil l : forall seen seen',
    validate_composites keywords composite_name seen l = Ok ([], seen') ->
    exists ids, Forall2 composite (map (fun x => fst (fst x)) l) ids /\ clean ids /\
      (forall i, In i ids -> ~ In i (keys seen)) /\ (forall x, In x l -> snd x = Ok []) /\
      (forall i, In i (keys seen') <-> In i ids \/ In i (keys seen)).
  Proof.
    induction l as [|[[name ref] own'] l IH]; intros seen seen'; cbn [validate_composites map fst snd].
    - intros [= <-]. exists []. repeat split; try constructor; try easy; cbn; tauto.
    - destruct (composite_name name) as [n|] eqn:E; cbn [bind]; [|discriminate]. apply Hcomposite in E.
      destruct own' as [oe|] eqn:Eo; cbn [bind]; [|discriminate].
      destruct (validate_composites keywords composite_name _ l) as [[errs' sn]|] eqn:R; cbn [bind fst snd]; [|discriminate].
      intros H. injection H as H <-. apply app_eq_nil in H. destruct H as [H1 H]. apply app_eq_nil in H. destruct H as [H2 H].
      apply app_eq_nil in H. destruct H as [-> ->]. apply keyword_nil in H1.
      destruct (lookup n seen) eqn:L; [discriminate|]. apply lookup_keys in L.
      apply IH in R. destruct R as (ids & A1 & [A2 A3] & A4 & A5 & A6). exists (n :: ids).
      assert (Hn : ~ In n ids) by (intros Hin; apply (A4 n Hin); apply keys_upsert_In; now left).
      split; [now constructor|]. split; [split; [now constructor | intros i [<- | Hi]; auto]|].
      split; [intros i [<- | Hi]; [assumption|]; intros C; apply (A4 i Hi); apply keys_upsert_In; now right|].
      split; [intros x [<- | Hx]; [reflexivity | auto]|].
      intros i. rewrite A6, keys_upsert_In. cbn. firstorder.
  Qed.

  Lemma validate_composites_ok l : forall seen ids,
    Forall2 composite (map (fun x => fst (fst x)) l) ids -> clean ids ->
    (forall i, In i ids -> ~ In i (keys seen)) -> (forall x, In x l -> snd x = Ok []) ->
    exists seen', validate_composites keywords composite_name seen l = Ok ([], seen').
  Proof.
    induction l as [|[[name ref] own'] l IH]; intros seen ids A1 [A2 A3] A4 A5; cbn [validate_composites map fst snd] in *; [eauto|].
    inversion A1 as [|? n ? ids' H1 H2]; subst. apply Hcomposite in H1. rewrite H1. cbn [bind]. inversion A2 as [|? ? Hn Hd]; subst.
    assert (K := A3 n (or_introl eq_refl)). apply mem_not_In in K. rewrite K.
    assert (L : lookup n seen = None) by (apply lookup_keys, A4; now left). rewrite L.
    assert (O := A5 _ (or_introl eq_refl)). cbn in O. subst own'. cbn [bind].
    assert (R : exists seen', validate_composites keywords composite_name (upsert n ref seen) l = Ok ([], seen')).
    { apply (IH _ ids'); auto.
      - split; [assumption | intros i Hi; apply A3; now right].
      - intros i Hi C. apply keys_upsert_In in C. destruct C as [-> | C]; [contradiction|]. apply (A4 i); [now right | assumption].
      - intros x Hx. apply A5. now right. }
    destruct R as (seen' & R). rewrite R. cbn. eauto.
  Qed.

  Lemma validate_composites_real e : forall l pre seen errs seen', (forall n r, In (n, r) seen -> In (n, r) pre) ->
    validate_composites keywords composite_name seen l = Ok (errs, seen') ->
    exists fs, pairs composite (map fst l) fs /\ (forall n r, In (n, r) seen' -> In (n, r) (pre ++ fs)) /\
      (In e errs ->
       (exists n, le_kind e = KKeyword n /\ In n keywords /\ In (n, le_ref e) fs) \/
       (exists n o a b c, le_kind e = KConflict n o /\ pre ++ fs = a ++ (n, o) :: b ++ (n, le_ref e) :: c) \/
       exists x errs', In x l /\ snd x = Ok errs' /\ In e errs').
  Proof.
    induction l as [|[[name ref] own'] l IH]; intros pre seen errs seen' Hs; cbn [validate_composites map fst snd].
    - intros [= <- <-]. exists []. split; [constructor|]. split; [intros n r H; rewrite app_nil_r; auto | contradiction].
    - destruct (composite_name name) as [n|] eqn:E; cbn [bind]; [|discriminate]. apply Hcomposite in E.
      destruct own' as [oe|] eqn:Eo; cbn [bind]; [|discriminate].
      destruct (validate_composites keywords composite_name _ l) as [[errs' sn]|] eqn:R; cbn [bind fst snd]; [|discriminate].
      intros [= <- <-].
      edestruct (IH (pre ++ [(n, ref)])) as (fs & Hp & Hsn & Hr); [|exact R|].
      { intros m q Hq. destruct (lookup n seen); [apply in_or_app; left; now apply Hs|].
        apply lookup_upsert_In in Hq. apply in_or_app. destruct Hq as [Hq | Hq]; [right; left; congruence | left; now apply Hs]. }
      exists ((n, ref) :: fs). split; [now constructor|].
      split; [intros m q Hq; apply Hsn in Hq; rewrite <- app_assoc in Hq; exact Hq|].
      intros Hin. rewrite !in_app_iff in Hin. destruct Hin as [Hin | [Hin | [Hin | Hin]]].
      + destruct (mem n keywords) eqn:K; [|contradiction]. destruct Hin as [<- | []]. left. exists n.
        split; [reflexivity|]. split; [now apply mem_In | now left].
      + destruct (lookup n seen) as [o|] eqn:L; [|contradiction]. destruct Hin as [<- | []]. right. left.
        apply lookup_In, Hs, in_split in L. destruct L as (a & b & ->).
        exists n, o, a, b, fs. split; [reflexivity|]. cbn. rewrite <- app_assoc. reflexivity.
      + right. right. exists (name, ref, Ok oe), oe. split; [now left|]. split; [reflexivity | assumption].
      + destruct (Hr Hin) as [(m & H1 & H2 & H3) | [(m & q & a & b & d & H1 & H2) | (x & ex & H1 & H2 & H3)]].
        * left. exists m. split; [assumption|]. split; [assumption | now right].
        * right. left. exists m, q, a, b, d. split; [assumption|]. rewrite <- app_assoc in H2. exact H2.
        * right. right. exists x, ex. split; [now right|]. split; assumption.
  Qed.

  (** ** The fields *)

  Lemma keys_fold (fs : list (str * str)) : forall (m : list (str * str)) i, In i (keys (fold_left (fun m f => upsert (fst f) (snd f) m) fs m)) <-> In i (map fst fs) \/ In i (keys m).
  Proof.
    induction fs as [|[n r] fs IH]; intros m i; cbn [fold_left map fst snd]; [cbn; tauto|]. rewrite IH, keys_upsert_In. cbn [In]. firstorder.
  Qed.
  Lemma fold_In (fs : list (str * str)) : forall (m : list (str * str)) n r, In (n, r) (fold_left (fun m f => upsert (fst f) (snd f) m) fs m) -> In (n, r) fs \/ In (n, r) m.
  Proof.
    induction fs as [|[n' r'] fs IH]; intros m n r; cbn; [tauto|]. intros H. apply IH in H. destruct H as [H | H]; [auto|].
    apply lookup_upsert_In in H. destruct H as [H | H]; [left; left; congruence | auto].
  Qed.

  Lemma usable_clean conv names : usable keywords conv names <-> exists ids, Forall2 conv names ids /\ clean ids.
  Proof. unfold usable, clean. firstorder. Qed.

  Lemma names_of ps fs : pairs field (of_props ps) fs -> Forall2 field (map p_name ps) (map fst fs).
  Proof. intros H. apply pairs_ids in H. unfold of_props in H. rewrite map_map in H. exact H. Qed.
  Lemma of_names ps ids : Forall2 field (map p_name ps) ids -> exists fs, pairs field (of_props ps) fs /\ map fst fs = ids.
  Proof.
    revert ids. induction ps as [|p ps IH]; intros ids H; inversion H as [|? i ? ids' H1 H2]; subst.
    - exists []. split; [constructor | reflexivity].
    - destruct (IH _ H2) as (fs & A & B). exists ((i, p_ref p) :: fs). split; [constructor; [now split | assumption] | cbn; now f_equal].
  Qed.

  Lemma embed_fields_nil e : validate_embed_fields keywords field_name e = Ok [] <-> usable keywords field (map p_name (e_props e)).
  Proof.
    rewrite usable_clean. unfold validate_embed_fields. split.
    - destruct (fields_of field_name (e_props e)) as [fs|] eqn:E; cbn [bind]; [|discriminate].
      intros H. injection H as H. apply fields_of_pairs in E. apply validate_fields_nil in H. exists (map fst fs). split; [now apply names_of | tauto].
    - intros (ids & H & C). apply of_names in H. destruct H as (fs & H & <-). apply fields_of_pairs in H. rewrite H. cbn [bind].
      f_equal. apply validate_fields_nil. split; [assumption | intros i Hi []].
  Qed.

  Lemma class_fields_nil c : validate_class_fields keywords field_name own c = Ok [] <->
    usable keywords field (map p_name (c_props c)) /\ forall p, In p (c_props c) -> ~ field (p_name p) own.
  Proof.
    rewrite usable_clean. unfold validate_class_fields. split.
    - destruct (fields_of field_name (c_props c)) as [fs|] eqn:E; cbn [bind]; [|discriminate].
      intros H. injection H as H. apply app_eq_nil in H. destruct H as [H H'].
      apply fields_of_pairs in E. apply validate_fields_nil in H.
      split; [exists (map fst fs); split; [now apply names_of | tauto]|].
      intros p Hp Hf. assert (Hin : In own (map fst fs)).
      { apply names_of in E. revert E Hp Hf. clear -Hfield. generalize (map fst fs). generalize (c_props c). clear c fs.
        induction l as [|q l IH]; intros ids H Hp Hf; inversion H as [|? i ? ids' H1 H2]; subst; [contradiction|].
        destruct Hp as [-> | Hp]; [left; eapply field_unique; eauto | right; eauto]. }
      apply in_map_iff in Hin. destruct Hin as ([n r] & E1 & Hin). cbn in E1. subst n.
      assert (A : In (LErr r (KReservedId own)) []) by (rewrite <- H'; apply in_flat_map; exists (own, r); split; [assumption|]; cbn; rewrite str_eqb_refl; now left).
      exact A.
    - intros [(ids & H & C) Ho]. apply of_names in H. destruct H as (fs & H & <-). assert (H' := H). apply fields_of_pairs in H. rewrite H. cbn [bind].
      f_equal. assert (E : validate_fields keywords [] fs = []) by (apply validate_fields_nil; split; [assumption | intros i Hi []]).
      rewrite E. cbn [app]. destruct (flat_map _ fs) as [|e l] eqn:F; [reflexivity|]. exfalso.
      assert (Hin : In e (e :: l)) by now left. rewrite <- F in Hin. apply in_flat_map in Hin. destruct Hin as ([n r] & Hn & Hin). cbn in Hin.
      destruct (str_eqb n own) eqn:En; [|contradiction]. apply str_eqb_eq in En. subst n.
      apply (pairs_once _ _ _ _ _ H') in Hn. destruct Hn as (n & Hn & Hf). unfold of_props in Hn. apply in_map_iff in Hn.
      destruct Hn as (p & Ep & Hp). injection Ep as <- <-. apply (Ho p Hp Hf).
  Qed.

  Lemma graph_fields_nil g : validate_graph_fields keywords field_name g = Ok [] <->
    usable keywords field (map p_name (g_props g) ++ map c_plural (g_classes g)).
  Proof.
    rewrite usable_clean. unfold validate_graph_fields. split.
    - destruct (fields_of field_name (g_props g)) as [fs|] eqn:E; cbn [bind]; [|discriminate].
      destruct (validate_registries keywords field_name _ [] (g_classes g)) as [errs|] eqn:R; cbn [bind]; [|discriminate].
      intros H. injection H as H. apply app_eq_nil in H. destruct H as [H ->].
      apply fields_of_pairs in E. apply validate_fields_nil in H. destruct H as [[C1 C2] _].
      apply validate_registries_nil in R. destruct R as (ids & A1 & [A2 A3] & A4 & _).
      exists (map fst fs ++ ids). split; [apply Forall2_app; [now apply names_of | assumption]|].
      split; [|intros i Hi; apply in_app_or in Hi; destruct Hi; auto].
      apply NoDup_app_intro; auto. intros i Hi Hj. apply (A4 i Hj). apply keys_fold. now left.
    - intros (ids & H & [C1 C2]). apply Forall2_app_inv_l in H. destruct H as (i1 & i2 & H1 & H2 & ->).
      apply of_names in H1. destruct H1 as (fs & H1 & <-). apply fields_of_pairs in H1. rewrite H1. cbn [bind].
      apply NoDup_app_parts in C1. destruct C1 as (N1 & N2 & N3).
      assert (R : validate_registries keywords field_name (fold_left (fun m f => upsert (fst f) (snd f) m) fs []) [] (g_classes g) = Ok []).
      { apply validate_registries_nil. exists i2. split; [assumption|].
        split; [split; [assumption | intros i Hi; apply C2; apply in_or_app; now right]|].
        split; [|intros i Hi []]. intros i Hi C. apply keys_fold in C. destruct C as [C | []]. apply (N3 i C Hi). }
      rewrite R. cbn [bind]. f_equal. rewrite app_nil_r. apply validate_fields_nil. split; [|intros i Hi []].
      split; [assumption | intros i Hi; apply C2; apply in_or_app; now left].
  Qed.

  (** ** The schema *)

  Definition class_parts g := map (fun c => (c_name c, c_ref c, validate_class_fields keywords field_name own c)) (g_classes g).
  Definition embed_parts g := map (fun e => (e_name e, e_ref e, validate_embed_fields keywords field_name e)) (g_embeds g).

  Lemma class_names g : map (fun x => fst (fst x)) (class_parts g) = map c_name (g_classes g).
  Proof. unfold class_parts. rewrite map_map. reflexivity. Qed.
  Lemma embed_names g : map (fun x => fst (fst x)) (embed_parts g) = map e_name (g_embeds g).
  Proof. unfold embed_parts. rewrite map_map. reflexivity. Qed.

  Theorem validate_schema_nil g :
    validate_schema keywords field_name composite_name own g = Ok [] <-> no_clash_but_graph keywords field composite own g.
  Proof.
    unfold validate_schema. fold (class_parts g) (embed_parts g). split.
    - destruct (composite_name (g_name g)) as [id|] eqn:E; cbn [bind]; [|discriminate]. apply Hcomposite in E.
      destruct (mem id keywords) eqn:K.
      + destruct (validate_composites _ _ _ (class_parts g)) as [[ce cs]|]; cbn [bind fst snd]; [|discriminate].
        destruct (validate_composites _ _ _ (embed_parts g)) as [[ee es]|]; cbn [bind fst snd]; [|discriminate].
        destruct (validate_graph_fields _ _ g); cbn [bind]; discriminate.
      + apply mem_not_In in K.
        destruct (validate_composites _ _ _ (class_parts g)) as [[ce cs]|] eqn:C; cbn [bind fst snd]; [|discriminate].
        destruct (validate_composites _ _ _ (embed_parts g)) as [[ee es]|] eqn:D; cbn [bind fst snd]; [|discriminate].
        destruct (validate_graph_fields _ _ g) as [ge|] eqn:G; cbn [bind]; [|discriminate].
        cbn [app]. intros H. injection H as H. apply app_eq_nil in H. destruct H as [-> H]. apply app_eq_nil in H. destruct H as [-> ->].
        apply validate_composites_nil in C. destruct C as (ci & C1 & [C2 C3] & C4 & C5 & C6). rewrite class_names in C1.
        apply validate_composites_nil in D. destruct D as (di & D1 & [D2 D3] & D4 & D5 & D6). rewrite embed_names in D1.
        apply graph_fields_nil in G.
        split; [exists [id]; split; [constructor; [assumption | constructor]|]; split; [constructor; [easy | constructor] | intros i [<- | []]; assumption]|].
        split.
        * exists (ci ++ di). split; [now apply Forall2_app|]. split; [|intros i Hi; apply in_app_or in Hi; destruct Hi; auto].
          apply NoDup_app_intro; auto. intros i Hi Hj. apply (D4 i Hj). apply C6. now left.
        * split; [|split; [|exact G]].
          -- intros c Hc. apply class_fields_nil. apply (C5 (c_name c, c_ref c, validate_class_fields keywords field_name own c)).
             apply in_map_iff. eauto.
          -- intros e He. apply embed_fields_nil. apply (D5 (e_name e, e_ref e, validate_embed_fields keywords field_name e)).
             apply in_map_iff. eauto.
    - intros ((gi & G1 & G2 & G3) & (ids & A1 & A2 & A3) & B1 & B2 & B3).
      inversion G1 as [|? id ? ? E Gn]; subst. inversion Gn; subst. apply Hcomposite in E. rewrite E. cbn [bind].
      assert (K := G3 id (or_introl eq_refl)). apply mem_not_In in K. rewrite K.
      apply Forall2_app_inv_l in A1. destruct A1 as (ci & di & C1 & D1 & ->). apply NoDup_app_parts in A2. destruct A2 as (N1 & N2 & N3).
      destruct (validate_composites_ok (class_parts g) [] ci) as (cs & C).
      { now rewrite class_names. } { split; [assumption | intros i Hi; apply A3; apply in_or_app; now left]. } { intros i Hi []. }
      { intros x Hx. apply in_map_iff in Hx. destruct Hx as (c & <- & Hc). cbn. now apply class_fields_nil, B1. }
      rewrite C. cbn [bind fst snd].
      assert (C' := C). apply validate_composites_nil in C'. destruct C' as (ci' & C1' & _ & _ & _ & C6). rewrite class_names in C1'.
      assert (ci' = ci) by (eapply (converted_unique composite); [exact composite_unique | eassumption | eassumption]). subst ci'.
      destruct (validate_composites_ok (embed_parts g) cs di) as (es & D).
      { now rewrite embed_names. } { split; [assumption | intros i Hi; apply A3; apply in_or_app; now right]. }
      { intros i Hi Hc. apply C6 in Hc. destruct Hc as [Hc | []]. apply (N3 i Hc Hi). }
      { intros x Hx. apply in_map_iff in Hx. destruct Hx as (e & <- & He). cbn. now apply embed_fields_nil, B2. }
      rewrite D. cbn [bind fst snd]. apply graph_fields_nil in B3. rewrite B3. reflexivity.
  Qed.

  (** ** The errors are real *)

  Lemma once_incl (conv : str -> str -> Prop) l l' i r : (forall x, In x l -> In x l') -> once conv l i r -> once conv l' i r.
  Proof. intros H (n & A & B). exists n. auto. Qed.

  Lemma fields_errors_real ps fs e : pairs field (of_props ps) fs -> In e (validate_fields keywords [] fs) ->
    (exists i, le_kind e = KKeyword i /\ In i keywords /\ once field (of_props ps) i (le_ref e)) \/
    (exists i o, le_kind e = KConflict i o /\ twice field (of_props ps) i o (le_ref e)).
  Proof.
    intros Hp H. apply (validate_fields_real e fs [] []) in H; [|intros ? ? []].
    destruct H as [(n & A & B & C) | (n & o & a & b & c & A & B)].
    - left. exists n. split; [assumption|]. split; [assumption|]. eapply pairs_once; eauto.
    - right. exists n, o. split; [assumption|]. cbn in B. subst fs. eapply pairs_twice; eauto.
  Qed.

  Lemma in_composites_class g c : In c (g_classes g) -> In (c_props c) (composites g).
  Proof. intros H. unfold composites. apply in_or_app. left. now apply in_map. Qed.
  Lemma in_composites_embed g e : In e (g_embeds g) -> In (e_props e) (composites g).
  Proof. intros H. unfold composites. apply in_or_app. right. apply in_or_app. left. now apply in_map. Qed.
  Lemma in_composites_graph g : In (g_props g) (composites g).
  Proof. unfold composites. apply in_or_app. right. apply in_or_app. right. now left. Qed.

  Lemma fields_real_in g ps fs e : In ps (composites g) -> pairs field (of_props ps) fs ->
    In e (validate_fields keywords [] fs) -> real keywords field composite own g e.
  Proof.
    intros Hps Hp H. destruct (fields_errors_real _ _ _ Hp H) as [(i & E & A & B) | (i & o & E & A)]; unfold real; rewrite E.
    - split; [assumption|]. right. eauto.
    - right. eauto.
  Qed.

  Lemma class_errors_real g c errs e : In c (g_classes g) -> validate_class_fields keywords field_name own c = Ok errs ->
    In e errs -> real keywords field composite own g e.
  Proof.
    intros Hc. unfold validate_class_fields. destruct (fields_of field_name (c_props c)) as [fs|] eqn:E; cbn [bind]; [|discriminate].
    intros [= <-] H. apply fields_of_pairs in E. apply in_app_or in H. destruct H as [H | H].
    - eapply fields_real_in; eauto using in_composites_class.
    - apply in_flat_map in H. destruct H as ([n r] & Hn & H). cbn in H. destruct (str_eqb n own) eqn:En; [|contradiction].
      apply str_eqb_eq in En. subst n. destruct H as [<- | []]. cbn. split; [reflexivity|]. exists c. split; [assumption|].
      eapply pairs_once; eauto.
  Qed.
  Lemma embed_errors_real g m errs e : In m (g_embeds g) -> validate_embed_fields keywords field_name m = Ok errs ->
    In e errs -> real keywords field composite own g e.
  Proof.
    intros Hm. unfold validate_embed_fields. destruct (fields_of field_name (e_props m)) as [fs|] eqn:E; cbn [bind]; [|discriminate].
    intros [= <-] H. apply fields_of_pairs in E. eapply fields_real_in; eauto using in_composites_embed.
  Qed.
  Lemma graph_errors_real g errs e : validate_graph_fields keywords field_name g = Ok errs ->
    In e errs -> real keywords field composite own g e.
  Proof.
    unfold validate_graph_fields. destruct (fields_of field_name (g_props g)) as [fs|] eqn:E; cbn [bind]; [|discriminate].
    destruct (validate_registries _ _ _ [] (g_classes g)) as [re|] eqn:R; cbn [bind]; [|discriminate].
    intros [= <-] H. apply fields_of_pairs in E. apply in_app_or in H. destruct H as [H | H].
    - eapply fields_real_in; eauto using in_composites_graph.
    - apply (validate_registries_real _ e _ []) in R; [|intros ? ? []]. destruct R as (rs & Hp & Hr).
      destruct (Hr H) as [(n & E1 & A & B) | [(n & o & E1 & A & B) | (n & o & a & b & c & E1 & A)]]; unfold real; rewrite E1.
      + split; [assumption|]. eapply pairs_once; eauto.
      + split; [|eapply pairs_once; eauto]. apply fold_In in A. destruct A as [A | []]. eapply pairs_once; eauto.
      + cbn in A. subst rs. eapply pairs_twice; eauto.
  Qed.

  Lemma map_fst_class g : map fst (class_parts g) = map (fun c => (c_name c, c_ref c)) (g_classes g).
  Proof. unfold class_parts. rewrite map_map. reflexivity. Qed.
  Lemma map_fst_embed g : map fst (embed_parts g) = map (fun e => (e_name e, e_ref e)) (g_embeds g).
  Proof. unfold embed_parts. rewrite map_map. reflexivity. Qed.

  Theorem validate_schema_real g errs e : validate_schema keywords field_name composite_name own g = Ok errs ->
    In e errs -> real keywords field composite own g e.
  Proof.
    unfold validate_schema. fold (class_parts g) (embed_parts g).
    destruct (composite_name (g_name g)) as [id|] eqn:E; cbn [bind]; [|discriminate]. apply Hcomposite in E.
    destruct (validate_composites _ _ _ (class_parts g)) as [[ce cs]|] eqn:C; cbn [bind fst snd]; [|discriminate].
    destruct (validate_composites _ _ _ (embed_parts g)) as [[ee es]|] eqn:D; cbn [bind fst snd]; [|discriminate].
    destruct (validate_graph_fields _ _ g) as [ge|] eqn:G; cbn [bind]; [|discriminate].
    intros H Hin. injection H as <-.
    apply (validate_composites_real e) with (pre := [(id, g_ref g)]) in C; [|destruct (mem id keywords); intros n r; cbn; tauto].
    destruct C as (cf & C1 & C2 & C3). apply (validate_composites_real e) with (1 := C2) in D. destruct D as (df & D1 & D2 & D3).
    rewrite map_fst_class in C1. rewrite map_fst_embed in D1.
    assert (P : pairs composite (of_composites g) ((id, g_ref g) :: cf ++ df)).
    { unfold of_composites. constructor; [now split|]. now apply pairs_app. }
    rewrite !in_app_iff in Hin. destruct Hin as [Hin | [Hin | [Hin | Hin]]].
    - destruct (mem id keywords) eqn:K; [|contradiction]. destruct Hin as [<- | []]. cbn. split; [now apply mem_In|]. left.
      eapply pairs_once; [exact P | now left].
    - destruct (C3 Hin) as [(n & E1 & A & B) | [(n & o & a & b & c & E1 & A) | (x & xe & A & B & B')]].
      + unfold real. rewrite E1. split; [assumption|]. left. eapply pairs_once; [exact P|]. right. apply in_or_app. now left.
      + unfold real. rewrite E1. left. apply (pairs_twice _ _ a b (c ++ df)).
        replace (a ++ (n, o) :: b ++ (n, le_ref e) :: c ++ df) with ((a ++ (n, o) :: b ++ (n, le_ref e) :: c) ++ df) by (rewrite <- app_assoc; cbn; now rewrite <- app_assoc).
        rewrite <- A. cbn. exact P.
      + apply in_map_iff in A. destruct A as (c & <- & Hc). cbn in B. eapply class_errors_real; eauto.
    - destruct (D3 Hin) as [(n & E1 & A & B) | [(n & o & a & b & c & E1 & A) | (x & xe & A & B & B')]].
      + unfold real. rewrite E1. split; [assumption|]. left. eapply pairs_once; [exact P|]. right. apply in_or_app. now right.
      + unfold real. rewrite E1. left. apply (pairs_twice _ _ a b c). rewrite <- A. cbn. exact P.
      + apply in_map_iff in A. destruct A as (m & <- & Hm). cbn in B. eapply embed_errors_real; eauto.
    - eapply graph_errors_real; eauto.
  Qed.

  (** ** The validation returns *)

  Lemma fields_of_returns ps : (exists fs, fields_of field_name ps = Ok fs) <-> forall p, In p ps -> exists i, field (p_name p) i.
  Proof.
    split.
    - intros (fs & H) p Hp. apply fields_of_pairs in H. unfold of_props in H.
      revert fs H. induction ps as [|q ps IH]; cbn; intros fs H; inversion H as [|? [i r] ? ? [H1 _] H2]; subst; [contradiction|].
      destruct Hp as [-> | Hp]; [eauto | eapply IH; eauto].
    - induction ps as [|p ps IH]; intros H; [exists []; reflexivity|].
      destruct IH as (fs & E); [intros q Hq; apply H; now right|]. destruct (H p) as (i & Hi); [now left|]. apply Hfield in Hi.
      exists ((i, p_ref p) :: fs). unfold fields_of in *. cbn [mapM]. rewrite Hi. cbn [bind]. rewrite E. reflexivity.
  Qed.

  Lemma registries_return pm cs : forall seen,
    (exists errs, validate_registries keywords field_name pm seen cs = Ok errs) <-> forall c, In c cs -> exists i, field (c_plural c) i.
  Proof.
    induction cs as [|c cs IH]; intros seen; cbn [validate_registries]; [split; [intros _ c [] | eauto]|].
    destruct (field_name (c_plural c)) as [n|] eqn:E; cbn [bind].
    - apply Hfield in E.
      assert (T : (forall c', In c' (c :: cs) -> exists i, field (c_plural c') i) <-> (forall c', In c' cs -> exists i, field (c_plural c') i)).
      { split; [intros H c' Hc'; apply H; now right | intros H c' [<- | Hc']; eauto]. }
      rewrite T. destruct (lookup n seen).
      + rewrite <- (IH seen). split.
        * intros (errs & H). destruct (validate_registries _ _ _ seen cs); [eauto | discriminate].
        * intros (errs & ->). cbn. eauto.
      + rewrite <- (IH (upsert n (c_ref c) seen)). split.
        * intros (errs & H). destruct (validate_registries _ _ _ (upsert n (c_ref c) seen) cs); [eauto | discriminate].
        * intros (errs & ->). cbn. eauto.
    - split; [intros (? & ?); discriminate|]. intros H. destruct (H c (or_introl eq_refl)) as (i & Hi). apply Hfield in Hi. congruence.
  Qed.

  Lemma composites_return l : forall seen,
    (exists r, validate_composites keywords composite_name seen l = Ok r) <->
    forall x, In x l -> (exists i, composite (fst (fst x)) i) /\ exists errs, snd x = Ok errs.
  Proof.
    induction l as [|[[name ref] o] l IH]; intros seen; cbn [validate_composites]; [split; [intros _ x [] | eauto]|]. split.
    - intros (r & H). destruct (composite_name name) as [n|] eqn:E; cbn [bind] in H; [|discriminate]. apply Hcomposite in E.
      destruct o as [oe|]; cbn [bind] in H; [|discriminate].
      destruct (validate_composites _ _ _ l) as [r'|] eqn:R in H; cbn [bind] in H; [|discriminate].
      intros x [<- | Hx]; [cbn; eauto|]. revert x Hx. eapply IH. eauto.
    - intros H. destruct (H _ (or_introl eq_refl)) as [(i & Hi) (errs & He)]. cbn in Hi, He. apply Hcomposite in Hi. rewrite Hi. subst o. cbn [bind].
      destruct (proj2 (IH (match lookup i seen with Some _ => seen | None => upsert i ref seen end))) as (r & R); [intros x Hx; apply H; now right|].
      rewrite R. cbn. eauto.
  Qed.

  Theorem validate_schema_returns g :
    (exists errs, validate_schema keywords field_name composite_name own g = Ok errs) <-> convertible field composite g.
  Proof.
    unfold validate_schema. fold (class_parts g) (embed_parts g). split.
    - intros (errs & H). destruct (composite_name (g_name g)) as [id|] eqn:E; cbn [bind] in H; [|discriminate]. apply Hcomposite in E.
      destruct (validate_composites _ _ _ (class_parts g)) as [[ce cs]|] eqn:C; cbn [bind fst snd] in H; [|discriminate].
      destruct (validate_composites _ _ _ (embed_parts g)) as [[ee es]|] eqn:D; cbn [bind fst snd] in H; [|discriminate].
      destruct (validate_graph_fields _ _ g) as [ge|] eqn:G; cbn [bind] in H; [|discriminate].
      assert (C' := proj1 (composites_return (class_parts g) _) (ex_intro _ _ C)).
      assert (D' := proj1 (composites_return (embed_parts g) _) (ex_intro _ _ D)).
      assert (Cc : forall c, In c (g_classes g) -> (exists i, composite (c_name c) i) /\ exists errs, validate_class_fields keywords field_name own c = Ok errs).
      { intros c Hc. apply (C' (c_name c, c_ref c, validate_class_fields keywords field_name own c)). apply in_map_iff. eauto. }
      assert (Dd : forall m, In m (g_embeds g) -> (exists i, composite (e_name m) i) /\ exists errs, validate_embed_fields keywords field_name m = Ok errs).
      { intros m Hm. apply (D' (e_name m, e_ref m, validate_embed_fields keywords field_name m)). apply in_map_iff. eauto. }
      unfold validate_graph_fields in G. destruct (fields_of field_name (g_props g)) as [fs|] eqn:F; cbn [bind] in G; [|discriminate].
      destruct (validate_registries _ _ _ [] (g_classes g)) as [re|] eqn:R; cbn [bind] in G; [|discriminate].
      split; [|split].
      + intros n [<- | Hn]; [eauto|]. apply in_app_or in Hn. destruct Hn as [Hn | Hn]; apply in_map_iff in Hn; destruct Hn as (x & <- & Hx); [apply Cc | apply Dd]; assumption.
      + intros ps p Hps Hp. unfold composites in Hps. rewrite !in_app_iff in Hps. destruct Hps as [Hps | [Hps | [<- | []]]].
        * apply in_map_iff in Hps. destruct Hps as (c & <- & Hc). destruct (Cc c Hc) as [_ (xe & Hxe)]. unfold validate_class_fields in Hxe.
          destruct (fields_of field_name (c_props c)) eqn:X; [|discriminate]. apply (proj1 (fields_of_returns _) (ex_intro _ _ X) p Hp).
        * apply in_map_iff in Hps. destruct Hps as (m & <- & Hm). destruct (Dd m Hm) as [_ (xe & Hxe)]. unfold validate_embed_fields in Hxe.
          destruct (fields_of field_name (e_props m)) eqn:X; [|discriminate]. apply (proj1 (fields_of_returns _) (ex_intro _ _ X) p Hp).
        * apply (proj1 (fields_of_returns _) (ex_intro _ _ F) p Hp).
      + intros c Hc. eapply (proj1 (registries_return _ _ _) (ex_intro _ _ R)); assumption.
    - intros (A & B & C). destruct (A (g_name g)) as (id & E); [now left|]. apply Hcomposite in E. rewrite E. cbn [bind].
      destruct (proj2 (composites_return (class_parts g) (if mem id keywords then [(id, g_ref g)] else []))) as ([ce cs] & R1).
      { intros x Hx. apply in_map_iff in Hx. destruct Hx as (c & <- & Hc). cbn. split; [apply A; right; apply in_or_app; left; now apply in_map|].
        unfold validate_class_fields. destruct (proj2 (fields_of_returns (c_props c))) as (fs & F); [intros p Hp; apply (B (c_props c)); [now apply in_composites_class | assumption]|].
        rewrite F. cbn. eauto. }
      rewrite R1. cbn [bind fst snd].
      destruct (proj2 (composites_return (embed_parts g) cs)) as ([ee es] & R2).
      { intros x Hx. apply in_map_iff in Hx. destruct Hx as (m & <- & Hm). cbn. split; [apply A; right; apply in_or_app; right; now apply in_map|].
        unfold validate_embed_fields. destruct (proj2 (fields_of_returns (e_props m))) as (fs & F); [intros p Hp; apply (B (e_props m)); [now apply in_composites_embed | assumption]|].
        rewrite F. cbn. eauto. }
      rewrite R2. cbn [bind fst snd]. unfold validate_graph_fields.
      destruct (proj2 (fields_of_returns (g_props g))) as (fs & F); [intros p Hp; eapply B; [apply in_composites_graph | assumption]|].
      rewrite F. cbn [bind].
      destruct (proj2 (registries_return (fold_left (fun m f => upsert (fst f) (snd f) m) fs []) (g_classes g) [])) as (re & R3); [assumption|].
      rewrite R3. cbn. eauto.
  Qed.
End Language.
