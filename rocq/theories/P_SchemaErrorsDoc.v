(** Proofs about the errors of the validation: whole documents. *)
From Coq Require Import String List Arith NArith ZArith QArith Bool Lia Permutation Floats.SpecFloat.
From Verif Require Import Base M_Naming M_Schema M_Dec M_Strftime M_Validate S_Conform P_Naming S_Validate P_Validate
  P_ValidateType P_ValidateDoc S_SchemaErrors P_SchemaErrors.
Import ListNotations.
Open Scope list_scope.
Local Open Scope nat_scope.

Lemma Forall2_same_length {A B} (P : A -> B -> Prop) xs ys : Forall2 P xs ys -> length xs = length ys.
Proof. induction 1; cbn; congruence. Qed.

(** * Documents *)

Lemma mapM_concat {A B} (f : A -> res (list B)) xs yss : mapM f xs = Ok yss ->
  (forall x, In x xs -> exists ys, f x = Ok ys) /\
  forall y, In y (concat yss) <-> exists x ys, In x xs /\ f x = Ok ys /\ In y ys.
Proof.
  intros H. apply mapM_Ok in H. induction H as [|x ys xs yss Hx H [IH1 IH2]].
  - split; [intros x []|]. intros y. split; [contradiction|]. intros (x & ys & [] & _).
  - split.
    + intros x' [<-|Hx']; eauto.
    + intros y. cbn [concat]. rewrite in_app_iff, IH2. split.
      * intros [Hy | (x' & ys' & A1 & A2 & A3)]; [exists x, ys; cbn; auto | exists x', ys'; cbn; auto].
      * intros (x' & ys' & [<-|A1] & A2 & A3); [left; congruence | right; eauto].
Qed.

Lemma firstn_In {A} (xs : list A) i x : In x (firstn i xs) <-> exists j, j < i /\ nth_error xs j = Some x.
Proof.
  revert i. induction xs as [|y xs IH]; intros [|i]; cbn [firstn In].
  - split; [contradiction|]. intros (j & Hj & _). lia.
  - split; [contradiction|]. intros (j & _ & Hj). destruct j; discriminate.
  - split; [contradiction|]. intros (j & Hj & _). lia.
  - rewrite IH. split.
    + intros [<- | (j & Hj & E)]; [exists 0; split; [lia | reflexivity] | exists (S j); split; [lia | exact E]].
    + intros ([|j] & Hj & E); [left; now injection E | right; exists j; split; [lia | exact E]].
Qed.
Lemma Forall2_nth {A B} (P : A -> B -> Prop) xs ys : Forall2 P xs ys -> forall i,
  (forall x, nth_error xs i = Some x -> exists y, nth_error ys i = Some y /\ P x y) /\
  (forall y, nth_error ys i = Some y -> exists x, nth_error xs i = Some x /\ P x y).
Proof.
  induction 1 as [|x y xs ys Hxy H IH]; intros [|i]; cbn [nth_error]; split; try discriminate; try apply IH; intros z [= <-]; eauto.
Qed.

Lemma names_errors objs ref kind : forall names k, (forall v, In v objs -> json_wf v) ->
  forall errs names' errs',
  fold_left (fun (acc : res (list str * list serr)) (ix : nat * jval) =>
               do st <- acc;
               do l <- fields (snd ix);
               do n <- M_Validate.get (s_ "name") l;
               do name <- text n;
               let (names, errs) := st in
               Ok (names ++ [name],
                   errs ++ (if mem name names
                            then [SErr (nth_ref ref kind (fst ix) ++ s_ "/name") (EDuplicateName name)] else [])))
            (number_from k objs) (Ok (names, errs)) = Ok (names', errs') ->
  exists ns, Forall2 name_of objs ns /\ names' = names ++ ns /\
    forall e, In e errs' <-> In e errs \/
      exists i n, nth_error ns i = Some n /\ In n (names ++ firstn i ns) /\
        e = SErr (nth_ref ref kind (k + i) ++ s_ "/name") (EDuplicateName n).
Proof.
  set (step := fun (acc : res (list str * list serr)) (ix : nat * jval) => _).
  assert (Hraise : forall l e, fold_left step l (Raise e) = Raise e).
  { induction l as [|ix l IH]; intros e; [reflexivity|]. cbn [fold_left]. apply IH. }
  induction objs as [|v objs IH]; intros names k Hwf errs names' errs'; cbn [number_from fold_left].
  - intros [= <- <-]. exists []. split; [constructor|]. split; [now rewrite app_nil_r|]. intros e. split; [auto|].
    intros [H | (i & n & H & _)]; [exact H | destruct i; discriminate].
  - unfold step at 2. cbn [fst snd bind].
    destruct v as [| | | | | |l]; cbn [fields bind]; try (rewrite Hraise; discriminate).
    unfold M_Validate.get. destruct (lookup (s_ "name") l) as [w|] eqn:El; cbn [bind]; [|rewrite Hraise; discriminate].
    destruct w as [| | | |n| |]; cbn [text bind]; try (rewrite Hraise; discriminate).
    intros H. apply IH in H; [|intros; apply Hwf; now right]. destruct H as (ns & H1 & -> & H2). exists (n :: ns). split; [|split].
    + constructor; [|exact H1]. exists l. split; [reflexivity|]. now apply lookup_In.
    + now rewrite <- app_assoc.
    + intros e. rewrite H2, in_app_iff. split.
      * intros [[He | He] | (i & m & A & B & C)]; [now left | | ].
        -- right. destruct (mem n names) eqn:Em; [|contradiction]. destruct He as [<-|[]]. exists 0, n. cbn [nth_error firstn].
           rewrite app_nil_r, Nat.add_0_r. apply mem_In in Em. auto.
        -- right. exists (S i), m. cbn [nth_error firstn]. rewrite Nat.add_succ_r. rewrite <- app_assoc in B. auto.
      * intros [He | ([|i] & m & A & B & C)]; [now auto | | ].
        -- cbn [nth_error firstn] in A, B. injection A as ->. rewrite app_nil_r in B. rewrite Nat.add_0_r in C. left. right.
           apply mem_In in B. rewrite B. left. now symmetry.
        -- right. exists i, m. cbn [nth_error firstn] in A, B. rewrite Nat.add_succ_r in C. rewrite <- app_assoc. auto.
Qed.

Section Documents.
  Variables (re_ok : str -> bool) (ordered : bool) (ref : str) (l : list (str * jval)).
  Hypothesis wf : json_wf (JObj l).
  Hypothesis shape : graph_shape l.

  Let keys_ok : NoDup (keys l).
  Proof. exact (proj1 (wf_obj _ wf)). Qed.
  Let wf_in k v : In (k, v) l -> json_wf v.
  Proof. exact (proj2 (wf_obj _ wf) k v). Qed.

  (** ** The composites and their names *)

  Section Composites.
    Variables (name : str) (classes embeds : list jval) (cns ens : list str).
    Hypothesis name_in : In (s_ "name", JStr name) l.
    Hypothesis classes_in : list_under l "classes" classes.
    Hypothesis embeds_in : list_under l "embeds" embeds.
    Hypothesis cnames : Forall2 name_of classes cns.
    Hypothesis enames : Forall2 name_of embeds ens.

    Lemma class_at i c : nth_error classes i = Some c -> exists m, c = JObj m /\ composite_at l (S i) [s_ "classes"; dec_nat i] m.
    Proof.
      intros Hc. assert (Hn := nth_error_In _ _ Hc). destruct (proj1 (Forall2_nth _ _ _ cnames i) _ Hc) as (n & _ & (m & -> & _)).
      exists m. split; [reflexivity|]. destruct classes_in as [H | [_ ->]]; [|contradiction]. econstructor; eauto.
    Qed.
    Lemma embed_at i c : nth_error embeds i = Some c ->
      exists m, c = JObj m /\ composite_at l (S (length cns + i)) [s_ "embeds"; dec_nat i] m.
    Proof.
      intros Hc. assert (Hn := nth_error_In _ _ Hc). destruct (proj1 (Forall2_nth _ _ _ enames i) _ Hc) as (n & _ & (m & -> & _)).
      exists m. split; [reflexivity|]. rewrite <- (Forall2_same_length _ _ _ cnames).
      destruct embeds_in as [H | [_ ->]]; [|contradiction]. econstructor; eauto.
    Qed.

    Lemma composite_leads i path c : composite_at l i path c -> leads path (JObj l) (JObj c).
    Proof.
      destruct 1 as [|cs i c H1 H2|cs es i e H0 H1 H2]; [constructor | |];
        (econstructor; [exact H1|]; econstructor; [exact H2|]; constructor).
    Qed.
    Lemma composite_wf i path c : composite_at l i path c -> json_wf (JObj c).
    Proof.
      destruct 1 as [|cs i c H1 H2|cs es i e H0 H1 H2]; [exact wf | |];
        (apply wf_in in H1; inversion H1; apply nth_error_In in H2; auto).
    Qed.
    (** The [i]-th composite has the [i]-th name. *)
    Lemma composite_name i path c : composite_at l i path c ->
      exists n, nth_error (name :: cns ++ ens) i = Some n /\ In (s_ "name", JStr n) c.
    Proof.
      intros H. destruct H as [|cs i c H1 H2|cs es i e H0 H1 H2]; cbn [nth_error].
      - exists name. auto.
      - assert (E : cs = classes) by (eapply list_under_unique; eauto; now left). subst cs.
        destruct (proj1 (Forall2_nth _ _ _ cnames i) _ H2) as (n & Hn & (m & [= <-] & Hm)). exists n. split; [|exact Hm].
        rewrite nth_error_app1; [exact Hn|]. apply nth_error_Some. congruence.
      - assert (E : cs = classes) by (eapply list_under_unique; eauto). subst cs.
        assert (E : es = embeds) by (eapply list_under_unique; eauto; now left). subst es.
        destruct (proj1 (Forall2_nth _ _ _ enames i) _ H2) as (n & Hn & (m & [= <-] & Hm)). exists n. split; [|exact Hm].
        rewrite (Forall2_same_length _ _ _ cnames), nth_error_app2, Nat.add_comm, Nat.add_sub by lia. exact Hn.
    Qed.
    Lemma named_composite i n : nth_error (name :: cns ++ ens) i = Some n ->
      exists path c, composite_at l i path c /\ In (s_ "name", JStr n) c.
    Proof.
      destruct i as [|i]; cbn [nth_error].
      - intros [= <-]. exists [], l. split; [constructor | exact name_in].
      - intros H. destruct (Nat.lt_ge_cases i (length cns)) as [Hi|Hi].
        + rewrite nth_error_app1 in H by exact Hi. destruct (proj2 (Forall2_nth _ _ _ cnames i) _ H) as (c & Hc & (m & -> & Hm)).
          destruct (class_at i _ Hc) as (m' & [= <-] & Hat). eauto.
        + rewrite nth_error_app2 in H by exact Hi. destruct (proj2 (Forall2_nth _ _ _ enames _) _ H) as (c & Hc & (m & -> & Hm)).
          destruct (embed_at _ _ Hc) as (m' & [= <-] & Hat). replace (S (length cns + (i - length cns))) with (S i) in Hat by lia. eauto.
    Qed.
    Lemma type_names t : In t (NONCOMPOSITE ++ name :: cns ++ ens) <-> type_name l t.
    Proof.
      unfold type_name. change (map s_ simple_types) with NONCOMPOSITE. rewrite in_app_iff. apply or_iff_compat_l. split.
      - intros H. apply In_nth_error in H. destruct H as (i & H). destruct (named_composite i t H) as (path & c & A & B). eauto.
      - intros (i & path & c & A & B). destruct (composite_name _ _ _ A) as (n & Hn & B').
        assert (E := unique c (proj1 (wf_obj _ (composite_wf _ _ _ A))) _ _ _ B B'). injection E as ->. eapply nth_error_In; eauto.
    Qed.
    (** [n] is the name of a composite before the [i]-th. *)
    Lemma earlier_name i n : In n (firstn i (name :: cns ++ ens)) <->
      exists j path c, j < i /\ composite_at l j path c /\ In (s_ "name", JStr n) c.
    Proof.
      rewrite firstn_In. split.
      - intros (j & Hj & H). destruct (named_composite j n H) as (path & c & A & B). eauto 6.
      - intros (j & path & c & Hj & A & B). exists j. split; [exact Hj|]. destruct (composite_name _ _ _ A) as (m & Hm & B').
        assert (E := unique c (proj1 (wf_obj _ (composite_wf _ _ _ A))) _ _ _ B B'). injection E as ->. exact Hm.
    Qed.
  End Composites.

  Lemma names_part names errs : validate_names l ref = Ok (names, errs) ->
    exists name classes embeds cns ens,
      In (s_ "name", JStr name) l /\ list_under l "classes" classes /\ list_under l "embeds" embeds /\
      Forall2 name_of classes cns /\ Forall2 name_of embeds ens /\ names = name :: cns ++ ens /\
      forall e, In e errs <-> exists i path c j path' c' n,
        composite_at l i path c /\ In (s_ "name", JStr n) c /\
        composite_at l j path' c' /\ In (s_ "name", JStr n) c' /\ j < i /\
        e = SErr (reference ref (path ++ [s_ "name"])) (EDuplicateName n).
  Proof.
    unfold validate_names, name_errors, enumerate. intros H.
    unfold M_Validate.get in H at 1. destruct (lookup (s_ "name") l) as [v|] eqn:En; [|discriminate]. cbn [bind] in H.
    destruct v as [| | | |n| |]; try discriminate. cbn [text bind] in H.
    destruct (elements (s_ "classes") l) as [cs|] eqn:Ec; [|discriminate]. cbn [bind] in H.
    match type of H with bind ?m _ = _ => destruct m as [(nm1, er1)|] eqn:E1 end; [|discriminate]. cbn [bind fst snd] in H.
    destruct (elements (s_ "embeds") l) as [es|] eqn:Ee; [|discriminate]. cbn [bind] in H.
    match type of H with bind ?m _ = _ => destruct m as [(nm2, er2)|] eqn:E2 end; [|discriminate]. cbn [bind fst snd] in H.
    injection H as <- <-. apply elements_iff in Ec, Ee; auto. apply lookup_In in En.
    apply names_errors in E1; [|eapply elements_wf; eauto]. destruct E1 as (cns & F1 & -> & M1).
    apply names_errors in E2; [|eapply elements_wf; eauto]. destruct E2 as (ens & F2 & -> & M2).
    exists n, cs, es, cns, ens. do 6 (split; [auto|]). intros e. rewrite in_app_iff, M1, M2. clear M1 M2. cbn [In Nat.add].
    assert (Hearly := earlier_name n cs es cns ens En Ec Ee F1 F2).
    assert (Hfst : forall i, i <= length cns -> firstn (S i) (n :: cns ++ ens) = [n] ++ firstn i cns).
    { intros i Hi. cbn [firstn app]. rewrite firstn_app. replace (i - length cns) with 0 by lia. cbn [firstn]. now rewrite app_nil_r. }
    assert (Hfst2 : forall i, firstn (S (length cns + i)) (n :: cns ++ ens) = ([n] ++ cns) ++ firstn i ens).
    { intros i. cbn [firstn app]. rewrite firstn_app, firstn_all2, Nat.add_comm, Nat.add_sub by lia. reflexivity. }
    assert (Hname : forall path m r, r = reference ref path -> SErr (r ++ s_ "/name") (EDuplicateName m) =
      SErr (reference ref (path ++ [s_ "name"])) (EDuplicateName m)).
    { intros path m r ->. now rewrite reference_app, reference_cons, reference_nil. }
    split.
    - intros [[[] | (i & m & A & B & ->)] | [[] | (i & m & A & B & ->)]].
      + destruct (proj2 (Forall2_nth _ _ _ F1 i) _ A) as (c & Hc & (mc & -> & Hm)).
        destruct (class_at cs cns Ec F1 i _ Hc) as (m' & [= <-] & Hat).
        rewrite <- Hfst in B by (apply Nat.lt_le_incl, nth_error_Some; congruence). apply Hearly in B. destruct B as (j & path' & c' & Hj & Hat' & Hin').
        exists (S i), [s_ "classes"; dec_nat i], mc, j, path', c', m. repeat (split; [auto|]). apply Hname. apply nth_ref_reference.
      + destruct (proj2 (Forall2_nth _ _ _ F2 i) _ A) as (c & Hc & (mc & -> & Hm)).
        destruct (embed_at cs es cns ens Ec Ee F1 F2 i _ Hc) as (m' & [= <-] & Hat).
        rewrite <- Hfst2 in B. apply Hearly in B. destruct B as (j & path' & c' & Hj & Hat' & Hin').
        exists (S (length cns + i)), [s_ "embeds"; dec_nat i], mc, j, path', c', m. repeat (split; [auto|]). apply Hname. apply nth_ref_reference.
    - intros (i & path & c & j & path' & c' & m & Hat & Hin & Hat' & Hin' & Hj & ->).
      assert (B := proj2 (Hearly i m) (ex_intro _ j (ex_intro _ path' (ex_intro _ c' (conj Hj (conj Hat' Hin')))))).
      destruct (composite_name n cs es cns ens En Ec Ee F1 F2 _ _ _ Hat) as (m' & Hm & Hin2).
      assert (E := unique c (proj1 (wf_obj _ (composite_wf _ _ _ Hat))) _ _ _ Hin Hin2). injection E as <-.
      destruct Hat as [|cs' i c H1 H2|cs' es' i c H0 H1 H2].
      + lia.
      + left. right. assert (E : cs' = cs) by (eapply list_under_unique; eauto; now left). subst cs'.
        assert (Hi : i < length cns) by (rewrite <- (Forall2_same_length _ _ _ F1); apply nth_error_Some; congruence).
        exists i, m. cbn [nth_error] in Hm. rewrite nth_error_app1 in Hm by exact Hi. split; [exact Hm|].
        rewrite Hfst in B by lia. split; [exact B|]. symmetry. apply Hname. apply nth_ref_reference.
      + right. right. assert (E : cs' = cs) by (eapply list_under_unique; eauto). subst cs'.
        rewrite (Forall2_same_length _ _ _ F1) in *.
        exists i, m. cbn [nth_error] in Hm. rewrite nth_error_app2, Nat.add_comm, Nat.add_sub in Hm by lia. split; [exact Hm|].
        rewrite Hfst2 in B. split; [exact B|]. symmetry. apply Hname. apply nth_ref_reference.
  Qed.

  (** ** The order of the members *)

  Lemma top_part errs : validate_top ordered l ref = Ok errs -> forall e, In e errs <->
    (ordered = true /\ exists k v r, l = (k, v) :: r /\ k <> s_ "name" /\ e = SErr (reference ref [s_ "name"]) EFirstKey) \/
    (ordered = true /\ exists a k v r, l = a :: (k, v) :: r /\ k <> s_ "description" /\ e = SErr (reference ref [s_ "description"]) ESecondKey).
  Proof.
    unfold validate_top. destruct ordered.
    2:{ intros [= <-] e. split; [contradiction|]. intros [[[=] _] | [[=] _]]. }
    intros H e. rewrite !reference_cons, !reference_nil. clear -H. destruct l as [|(k0, v0) [|(k1, v1) r]]; try discriminate.
    cbn [keys map fst] in H. injection H as <-. rewrite in_app_iff. split.
    - intros [H|H].
      + left. split; [reflexivity|]. destruct (str_eqb k0 (s_ "name")) eqn:E; [contradiction|]. destruct H as [<-|[]].
        exists k0, v0, ((k1, v1) :: r). split; [reflexivity|]. split; [|reflexivity]. intros ->. now rewrite str_eqb_refl in E.
      + right. split; [reflexivity|]. destruct (str_eqb k1 (s_ "description")) eqn:E; [contradiction|]. destruct H as [<-|[]].
        exists (k0, v0), k1, v1, r. split; [reflexivity|]. split; [|reflexivity]. intros ->. now rewrite str_eqb_refl in E.
    - intros [(_ & k & v & r' & [= -> -> <-] & Hk & ->) | (_ & a & k & v & r' & [= <- -> -> <-] & Hk & ->)].
      + left. apply str_eqb_neq in Hk. rewrite Hk. now left.
      + right. apply str_eqb_neq in Hk. rewrite Hk. now left.
  Qed.

  (** ** Classes *)

  Lemma class_part base c errs : NoDup (keys c) -> maybe c "id_pattern" (a_text any) ->
    validate_class re_ok base c = Ok errs -> forall e, In e errs <->
    (exists p, In (s_ "id_pattern", JStr p) c /\ re_ok p = false /\ e = SErr (reference base [s_ "id_pattern"]) EIdPattern) \/
    (exists ps, In (s_ "properties", JObj ps) c /\ In (s_ "id") (keys ps) /\ e = SErr (reference base [s_ "properties"]) EReservedId).
  Proof.
    intros Hn Hp. unfold validate_class. rewrite !reference_cons, !reference_nil.
    set (ids := match lookup (s_ "id_pattern") c with Some (JStr p) => _ | Some _ => _ | None => _ end).
    assert (Hids : forall e, In e ids <-> exists p, In (s_ "id_pattern", JStr p) c /\ re_ok p = false /\ e = SErr (base ++ s_ "/" ++ s_ "id_pattern") EIdPattern).
    { intros e. subst ids. destruct (lookup (s_ "id_pattern") c) as [v|] eqn:E.
      - apply lookup_In in E. destruct (Hp _ E) as (p & -> & _). destruct (re_ok p) eqn:Er.
        + split; [contradiction|]. intros (q & Hq & Hr & _). assert (Eq := unique c Hn _ _ _ E Hq). injection Eq as <-. congruence.
        + split; [intros [<-|[]]; eauto|]. intros (q & _ & _ & ->). now left.
      - split; [contradiction|]. intros (q & Hq & _). apply (In_lookup _ _ _ Hn) in Hq. congruence. }
    clearbody ids. destruct (lookup (s_ "properties") c) as [ps|] eqn:E.
    - apply lookup_In in E. destruct ps as [| | | | | |ps]; try discriminate. cbn [fields bind]. intros [= <-] e. rewrite in_app_iff, Hids.
      apply or_iff_compat_l. destruct (mem (s_ "id") (keys ps)) eqn:Em.
      + apply mem_In in Em. split; [intros [<-|[]]; eauto|]. intros (qs & _ & _ & ->). now left.
      + apply mem_not_In in Em. split; [contradiction|]. intros (qs & Hq & Hi & _). assert (Eq := unique c Hn _ _ _ E Hq). injection Eq as <-. contradiction.
    - intros [= <-] e. rewrite Hids. split; [auto|]. intros [H | (qs & Hq & _)]; [exact H|]. apply (In_lookup _ _ _ Hn) in Hq. congruence.
  Qed.

  (** ** Properties *)

  Lemma properties_part types base c errs : NoDup (keys c) -> validate_properties re_ok ordered types base c = Ok errs ->
    (forall ps n p, In (s_ "properties", JObj ps) c -> In (n, p) ps ->
       exists o, validate_type re_ok ordered true types (reference base [s_ "properties"; n]) p = Ok o) /\
    forall e, In e errs <-> exists ps n p, In (s_ "properties", JObj ps) c /\ In (n, p) ps /\
      ((~ lax (identifier letter) n /\ e = SErr (reference base [s_ "properties"]) (EPropertyName n)) \/
       validate_type re_ok ordered true types (reference base [s_ "properties"; n]) p = Ok (Some e)).
  Proof.
    intros Hn. unfold validate_properties. destruct (lookup (s_ "properties") c) as [ps|] eqn:E.
    2:{ intros [= <-]. split.
        - intros ps n p Hin. apply (In_lookup _ _ _ Hn) in Hin. congruence.
        - intros e. split; [contradiction|]. intros (ps & n & p & Hin & _). apply (In_lookup _ _ _ Hn) in Hin. congruence. }
    apply lookup_In in E. destruct ps as [| | | | | |ps]; try discriminate. cbn [fields bind].
    match goal with |- bind ?m _ = _ -> _ => destruct m as [ess|] eqn:Em end; [|discriminate]. cbn [bind]. intros [= <-].
    apply mapM_concat in Em. destruct Em as [Em1 Em2].
    assert (Hr : forall n, reference base [s_ "properties"; n] = base ++ s_ "/properties/" ++ n).
    { intros n. rewrite !reference_cons, reference_nil. now rewrite <- !app_assoc. }
    assert (Hr' : reference base [s_ "properties"] = base ++ s_ "/properties") by now rewrite reference_cons, reference_nil.
    split.
    - intros ps' n p Hin Hp. assert (Eq := unique c Hn _ _ _ E Hin). injection Eq as <-. destruct (Em1 _ Hp) as (ys & Hy). cbn beta iota in Hy.
      rewrite Hr. destruct (validate_type _ _ _ _ _ p) as [o|]; [eauto | discriminate].
    - intros e. rewrite Em2. split.
      + intros ((n, p) & ys & Hp & Hy & He). exists ps, n, p. rewrite Hr, Hr'. split; [exact E|]. split; [exact Hp|].
        destruct (validate_type _ _ _ _ _ p) as [o|]; [|discriminate]. cbn [bind] in Hy. injection Hy as <-. apply in_app_iff in He.
        destruct He as [He|He].
        * left. destruct (property_re n) eqn:En; [contradiction|]. destruct He as [<-|[]]. split; [|reflexivity].
          rewrite <- property_name_ok. congruence.
        * right. destruct o as [e'|]; [|contradiction]. now destruct He as [<-|[]].
      + intros (ps' & n & p & Hin & Hp & He). assert (Eq := unique c Hn _ _ _ E Hin). injection Eq as <-. destruct (Em1 _ Hp) as (ys & Hy).
        exists (n, p), ys. split; [exact Hp|]. split; [exact Hy|]. cbn beta iota in Hy. rewrite Hr, Hr' in He.
        destruct (validate_type _ _ _ _ _ p) as [o|]; [|discriminate]. cbn [bind] in Hy. injection Hy as <-. apply in_app_iff.
        destruct He as [[Hl ->] | [= ->]]; [|right; now left]. left. rewrite <- property_name_ok in Hl. destruct (property_re n); [now contradiction Hl|]. now left.
  Qed.

  (** ** Plurals *)

  Lemma class_path i j c : composite_at l i [s_ "classes"; j] c ->
    exists cs k, In (s_ "classes", JArr cs) l /\ nth_error cs k = Some (JObj c) /\ i = S k /\ j = dec_nat k.
  Proof.
    intros H. inversion H as [E|cs k c' H1 H2 E1 E2|cs es k e H0 H1 H2 E1 E2]; subst.
    exists cs, k. auto.
  Qed.

  Lemma table_value regs : forall t k c,
    lookup k (fold_left (fun t (r : option (str * str)) => match r with Some (k, n) => upsert k n t | None => t end) regs t) = Some c ->
    lookup k t = Some c \/ In (Some (k, c)) regs.
  Proof.
    induction regs as [|r regs IH]; intros t k c; cbn [fold_left]; [auto|]. intros H. apply IH in H.
    destruct H as [H|H]; [|right; now right]. destruct r as [(k', n')|]; [|auto].
    destruct (str_eqb k k') eqn:E.
    - apply str_eqb_eq in E. subst k'. rewrite lookup_upsert_eq in H. injection H as ->. right. now left.
    - rewrite lookup_upsert_neq in H by (apply str_eqb_neq in E; congruence). auto.
  Qed.

  Lemma plurals_part classes cns errs : list_under l "classes" classes -> Forall2 name_of classes cns ->
    (forall c, In c classes -> exists m, c = JObj m /\ maybe m "plural" (a_text any)) ->
    (forall v, In (s_ "properties", v) l -> exists ps, v = JObj ps) ->
    validate_plurals ordered l ref = Ok errs ->
    (forall e, In e errs -> exists n cn, plural_taken l n cn /\ e = SErr (reference ref [n]) (EPlural n cn)) /\
    (forall n cn, plural_taken l n cn -> exists cn', In (SErr (reference ref [n]) (EPlural n cn')) errs).
  Proof.
    intros Hcl Hnames Hcs Hps. assert (Hwc := elements_wf l "classes" classes wf Hcl).
    assert (Hempty : ~ (exists cs, In (s_ "classes", JArr cs) l) \/ ~ (exists ps, In (s_ "properties", JObj ps) l) ->
      (forall e, In e ([] : list serr) -> exists n cn, plural_taken l n cn /\ e = SErr (reference ref [n]) (EPlural n cn)) /\
      (forall n cn, plural_taken l n cn -> exists cn', In (SErr (reference ref [n]) (EPlural n cn')) [])).
    { intros Hno. split; [intros e []|]. intros n cn (ps & i & j & c & p & A1 & A2 & A3 & _). apply class_path in A3.
      destruct A3 as (cs & k & A3 & _). exfalso. destruct Hno as [Hno|Hno]; apply Hno; eauto. }
    unfold validate_plurals. destruct (lookup (s_ "classes") l) as [cv|] eqn:Ec.
    2:{ intros [= <-]. apply Hempty. left. intros (cs & H). apply (In_lookup _ _ _ keys_ok) in H. congruence. }
    destruct (lookup (s_ "properties") l) as [pv|] eqn:Ep.
    2:{ intros [= <-]. apply Hempty. right. intros (cs & H). apply (In_lookup _ _ _ keys_ok) in H. congruence. }
    apply lookup_In in Ec, Ep. destruct (Hps _ Ep) as (ps & ->).
    destruct Hcl as [Hcl | [Hcl _]]; [|exfalso; apply Hcl; apply in_map_iff; now exists (s_ "classes", cv)].
    assert (E := unique l keys_ok _ _ _ Hcl Ec). subst cv. cbn [items fields bind].
    match goal with |- bind ?m _ = _ -> _ => destruct m as [regs|] eqn:Em end; [|discriminate]. cbn [bind]. apply mapM_Ok in Em.
    assert (Hreg : forall i, (forall c n, nth_error classes i = Some c -> nth_error cns i = Some n -> exists p, plural_of c p /\ name_of c n /\ nth_error regs i = Some (Some (lower p, n))) /\
      (forall k n, nth_error regs i = Some (Some (k, n)) -> exists c p, nth_error classes i = Some c /\ name_of c n /\ plural_of c p /\ k = lower p)).
    { clear - Hnames Hcs Hwc Em. revert regs Em. induction Hnames as [|c n cs ns Hc Hnames IH]; intros regs Em i.
      - inversion Em; subst. split; [intros c n H | intros k n H]; destruct i; discriminate.
      - inversion Em as [|? r ? rs Hr Em']; subst. destruct i as [|i].
        + destruct (registry_ok c n) as (p & Hp & E); [apply Hwc; now left | exact Hc | apply Hcs; now left |].
          unfold json_plural in E. rewrite Hr in E. destruct (initial_upper p); [|discriminate]. injection E as ->. cbn [nth_error]. split.
          * intros c' n' [= <-] [= <-]. eauto.
          * intros k n' [= <- <-]. exists c, p. auto.
        + cbn [nth_error]. apply IH; auto; intros; [apply Hcs | apply Hwc]; now right. }
    set (table := fold_left _ regs []). intros H. injection H as <-. split.
    - intros e He. apply in_flat_map in He. destruct He as (k & Hk & He). apply (proj1 (item_list_keys ordered ps k)) in Hk.
      destruct (lookup k table) as [cn|] eqn:Et; [|contradiction]. destruct He as [<-|[]]. exists k, cn. split; [|now rewrite reference_cons, reference_nil].
      apply table_value in Et. destruct Et as [Et|Et]; [discriminate|]. apply In_nth_error in Et. destruct Et as (i & Et).
      destruct (proj2 (Hreg i) _ _ Et) as (c & p & A1 & (m & -> & A2) & A3 & A4).
      exists ps, (S i), (dec_nat i), m, p. repeat (split; [solve [auto | econstructor; eauto]|]). exact A2.
    - intros n cn (ps' & i & j & c & p & A1 & A2 & A3 & A4 & -> & A6).
      assert (E := unique l keys_ok _ _ _ Ep A1). injection E as <-.
      apply class_path in A3. destruct A3 as (cs & k & A3 & A7 & -> & ->). assert (E := unique l keys_ok _ _ _ Hcl A3). injection E as <-.
      destruct (proj1 (Forall2_nth _ _ _ Hnames k) _ A7) as (n & Hn & _). destruct (proj1 (Hreg k) _ _ A7 Hn) as (q & Hq & _ & Hr).
      assert (E : q = p) by (eapply plural_of_unique; [|exact Hq | exact A4]; apply Hwc; eapply nth_error_In; exact A7). subst q.
      assert (Ht : In (lower p) (keys table)) by (apply table_In; right; exists n; eapply nth_error_In; eauto).
      apply lookup_key_Some in Ht. destruct Ht as (cn' & Ht). exists cn'. apply in_flat_map. exists (lower p).
      split; [now apply item_list_keys|]. rewrite Ht. left. now rewrite reference_cons, reference_nil.
  Qed.

  (** ** All errors *)

  Lemma type_stated ps n p : jvalid PROPERTIES (JObj ps) = true -> json_wf (JObj ps) -> In (n, p) ps ->
    exists m, p = JObj m /\ In (s_ "type") (keys m).
  Proof.
    intros Hj Hw Hp. apply j_properties in Hj; auto. destruct Hj as (ps' & [= <-] & Hj). specialize (Hj _ _ Hp).
    apply j_property in Hj; [|exact (proj2 (wf_obj _ Hw) _ _ Hp)]. destruct Hj as (m & -> & _ & Ht & _). exists m. split; [reflexivity|].
    eapply member_keys; eauto.
  Qed.

  Notation faults := (fault re_ok ordered l).

  Lemma composite_shape i path c : composite_at l i path c ->
    NoDup (keys c) /\ maybe c "properties" (fun v => jvalid PROPERTIES v = true) /\
    (forall j, path = [s_ "classes"; j] -> maybe c "id_pattern" (a_text any)).
  Proof.
    intros H. assert (Hw := composite_wf _ _ _ H). split; [exact (proj1 (wf_obj _ Hw))|].
    destruct shape as (_ & _ & _ & _ & _ & _ & S7 & S8 & S9). destruct H as [|cs i c H1 H2|cs es i c H0 H1 H2].
    - split; [exact S9|]. intros j [=].
    - destruct (S7 _ H1) as (cs' & [= <-] & Hcs). apply nth_error_In in H2. apply Hcs in H2. apply j_class in H2; auto.
      destruct H2 as (c' & [= <-] & (_ & _ & _ & _ & Hi & Hp)). auto.
    - destruct (S8 _ H1) as (cs' & [= <-] & Hcs). apply nth_error_In in H2. apply Hcs in H2. apply j_embed in H2; auto.
      destruct H2 as (c' & [= <-] & (_ & _ & _ & Hp)). split; [exact Hp|]. intros j [=].
  Qed.

  Definition located (e : serr) : Prop :=
    tells (JObj l) ref faults e \/ exists n cn, plural_taken l n cn /\ e = SErr (reference ref [n]) (EPlural n cn).

  Theorem all_errors errs : validate re_ok ordered (JObj l) ref = Ok errs ->
    (forall e, In e errs -> located e) /\
    (forall path kind, bad_composite re_ok ordered l path kind -> In (SErr (reference ref path) kind) errs) /\
    (forall i path c ps n p sub kind, composite_at l i path c -> In (s_ "properties", JObj ps) c -> In (n, p) ps ->
       bad_definition re_ok ordered (type_name l) true p sub kind ->
       exists e, In e errs /\
         tells p (reference ref (path ++ [s_ "properties"; n])) (bad_definition re_ok ordered (type_name l) true p) e) /\
    (forall n cn, plural_taken l n cn -> exists cn', In (SErr (reference ref [n]) (EPlural n cn')) errs).
  Proof.
    unfold validate. replace (jvalid GRAPH (JObj l)) with true by (symmetry; apply j_graph; eauto). cbn [negb fields bind].
    destruct (validate_top ordered l ref) as [top|] eqn:Et; [|discriminate]. cbn [bind].
    destruct (validate_names l ref) as [(names, nerrs)|] eqn:En; [|discriminate]. cbn [bind fst snd].
    destruct (elements (s_ "classes") l) as [classes|] eqn:Ec; [|discriminate]. cbn [bind].
    match goal with |- bind ?m _ = _ -> _ => destruct m as [cerrs|] eqn:Ecl end; [|discriminate]. cbn [bind].
    match goal with |- bind ?m _ = _ -> _ => destruct m as [gerrs|] eqn:Eg end; [|discriminate]. cbn [bind].
    match goal with |- bind ?m _ = _ -> _ => destruct m as [cperrs|] eqn:Ecp end; [|discriminate]. cbn [bind].
    destruct (elements (s_ "embeds") l) as [embeds|] eqn:Ee; [|discriminate]. cbn [bind].
    match goal with |- bind ?m _ = _ -> _ => destruct m as [eperrs|] eqn:Eep end; [|discriminate]. cbn [bind].
    destruct (validate_plurals ordered l ref) as [perrs|] eqn:Epl; [|discriminate]. cbn [bind]. intros H. injection H as <-.
    apply elements_iff in Ec, Ee; auto.
    apply names_part in En. destruct En as (name & cs & es & cns & ens & N1 & N2 & N3 & N4 & N5 & -> & Hnames).
    assert (cs = classes) by (eapply list_under_unique; eauto). assert (es = embeds) by (eapply list_under_unique; eauto). subst cs es.
    assert (Htop := top_part _ Et). apply mapM_concat in Ecl, Ecp, Eep. destruct Ecl as [_ Hcl], Ecp as [Hcp1 Hcp], Eep as [Hep1 Hep].
    set (types := NONCOMPOSITE ++ name :: cns ++ ens) in *.
    assert (Htypes : forall t, In t types <-> type_name l t) by (apply (type_names name classes embeds cns ens); auto).
    assert (Hcapital : forall x, In x (name :: cns ++ ens) -> ~ In x NONCOMPOSITE).
    { intros x Hx. apply capital_not_noncomposite. apply In_nth_error in Hx. destruct Hx as (i & Hi).
      destruct (named_composite name classes embeds cns ens N1 N2 N3 N4 N5 _ _ Hi) as (path & c & Hat & Hin).
      assert (Hcn : NoDup (keys c)) by apply (composite_shape _ _ _ Hat).
      destruct shape as (_ & (w & Hw1 & s & -> & Hs) & _ & _ & _ & _ & S7 & S8 & _).
      destruct Hat as [|cs i' c H1 H2|cs es i' c H0 H1 H2].
      - assert (E := unique l keys_ok _ _ _ Hin Hw1). congruence.
      - assert (Hwc := composite_wf _ _ _ (at_class l _ _ _ H1 H2)). destruct (S7 _ H1) as (cs' & [= <-] & Hcs). apply nth_error_In in H2. apply Hcs in H2.
        apply j_class in H2; auto. destruct H2 as (c' & [= <-] & (_ & (w & Hw2 & s' & -> & Hs') & _)).
        assert (E := unique c Hcn _ _ _ Hin Hw2). injection E as ->. now apply lax_identifier_starts.
      - assert (Hwc := composite_wf _ _ _ (at_embed l _ _ _ _ H0 H1 H2)). destruct (S8 _ H1) as (cs' & [= <-] & Hcs). apply nth_error_In in H2. apply Hcs in H2.
        apply j_embed in H2; auto. destruct H2 as (c' & [= <-] & (_ & (w & Hw2 & s' & -> & Hs') & _)).
        assert (E := unique c Hcn _ _ _ Hin Hw2). congruence. }
    assert (Hplural := plurals_part classes cns perrs N2 N4).
    assert (Hpl : (forall c, In c classes -> exists m, c = JObj m /\ maybe m "plural" (a_text any)) /\ (forall v, In (s_ "properties", v) l -> exists ps, v = JObj ps)).
    { destruct shape as (_ & _ & _ & _ & _ & _ & S7 & S8 & S9). split.
      - intros c Hc. assert (Hwc := elements_wf _ _ _ wf N2 _ Hc). destruct N2 as [N2 | [_ ->]]; [|contradiction].
        destruct (S7 _ N2) as (cs' & [= <-] & Hcs). apply Hcs in Hc. apply j_class in Hc; auto.
        destruct Hc as (m & -> & (_ & _ & _ & Hp & _)). exists m. split; [reflexivity|]. intros w Hw. destruct (Hp _ Hw) as (s & -> & _).
        exists s. split; [reflexivity | exact I].
      - intros v Hv. assert (Hwv := wf_in _ _ Hv). apply S9 in Hv. apply j_properties in Hv; auto. destruct Hv as (ps & -> & _). eauto. }
    destruct (Hplural (proj1 Hpl) (proj2 Hpl) Epl) as [Hplural1 Hplural2]. clear Hplural.
    (* the properties of all composites *)
    assert (Hprops : forall i path c, composite_at l i path c ->
      exists es, validate_properties re_ok ordered types (reference ref path) c = Ok es /\
        forall e, In e es -> In e (gerrs ++ concat cperrs ++ concat eperrs)).
    { intros i path c Hat. destruct Hat as [|cs i c H1 H2|cs es i c H0 H1 H2].
      - exists gerrs. rewrite reference_nil. split; [exact Eg|]. intros e He. rewrite !in_app_iff. auto.
      - assert (cs = classes) by (eapply list_under_unique; eauto; now left). subst cs.
        apply enumerate_In in H2. destruct (Hcp1 _ H2) as (ys & Hy). exists ys. cbn [fst snd fields bind] in Hy. rewrite <- nth_ref_reference. split; [exact Hy|].
        intros e He. rewrite !in_app_iff. right. left. apply Hcp. exists (i, JObj c), ys. auto.
      - assert (es = embeds) by (eapply list_under_unique; eauto; now left). subst es.
        apply enumerate_In in H2. destruct (Hep1 _ H2) as (ys & Hy). exists ys. cbn [fst snd fields bind] in Hy. rewrite <- nth_ref_reference. split; [exact Hy|].
        intros e He. rewrite !in_app_iff. right. right. apply Hep. exists (i, JObj c), ys. auto. }
    assert (Hprops' : forall e, In e (gerrs ++ concat cperrs ++ concat eperrs) ->
      exists i path c es, composite_at l i path c /\ validate_properties re_ok ordered types (reference ref path) c = Ok es /\ In e es).
    { intros e. rewrite !in_app_iff. intros [He|[He|He]].
      - exists 0, [], l, gerrs. rewrite reference_nil. split; [constructor|]. auto.
      - apply Hcp in He. destruct He as ((i, c) & ys & Hin & Hy & He). apply enumerate_In in Hin.
        destruct (class_at classes cns N2 N4 i c Hin) as (m & -> & Hat). cbn [fst snd fields bind] in Hy. rewrite nth_ref_reference in Hy. eauto 8.
      - apply Hep in He. destruct He as ((i, c) & ys & Hin & Hy & He). apply enumerate_In in Hin.
        destruct (embed_at classes embeds cns ens N2 N3 N4 N5 i c Hin) as (m & -> & Hat). cbn [fst snd fields bind] in Hy. rewrite nth_ref_reference in Hy. eauto 8. }
    assert (Hpp : forall i path c ps n p, composite_at l i path c -> In (s_ "properties", JObj ps) c -> In (n, p) ps ->
      json_wf p /\ (true = true -> forall m, p = JObj m -> In (s_ "type") (keys m)) /\ leads (path ++ [s_ "properties"; n]) (JObj l) p).
    { intros i path c ps n p Hat Hps Hp. assert (Hwc := composite_wf _ _ _ Hat). assert (Hwps := proj2 (wf_obj _ Hwc) _ _ Hps).
      split; [exact (proj2 (wf_obj _ Hwps) _ _ Hp)|]. split.
      - intros _ m ->. destruct (composite_shape _ _ _ Hat) as (_ & Hj & _). destruct (type_stated ps n _ (Hj _ Hps) Hwps Hp) as (m' & [= <-] & Hm). exact Hm.
      - eapply leads_app; [apply (composite_leads _ _ _ Hat)|]. econstructor; [exact Hps|]. econstructor; [exact Hp | constructor]. }
    assert (Hcls : forall e, In e (concat cerrs) <-> exists i j c es, composite_at l i [s_ "classes"; j] c /\
      validate_class re_ok (reference ref [s_ "classes"; j]) c = Ok es /\ In e es).
    { intros e. rewrite Hcl. split.
      - intros ((i, c) & ys & Hin & Hy & He). apply enumerate_In in Hin.
        destruct (class_at classes cns N2 N4 i c Hin) as (m & -> & Hat). cbn [fst snd fields bind] in Hy. rewrite nth_ref_reference in Hy. eauto 8.
      - intros (i & j & c & ys & Hat & Hy & He). apply class_path in Hat. destruct Hat as (cs & k & H1 & H2 & -> & ->).
        assert (cs = classes) by (eapply list_under_unique; eauto; now left). subst cs. apply enumerate_In in H2.
        exists (k, JObj c), ys. cbn [fst snd fields bind]. rewrite nth_ref_reference. auto. }
    assert (Hpin : forall e, In e (gerrs ++ concat cperrs ++ concat eperrs) ->
      In e gerrs \/ In e (concat cperrs) \/ In e (concat eperrs) \/ In e perrs) by (intros e; rewrite !in_app_iff; tauto).
    split; [|split; [|split]].
    - intros e He. rewrite !app_assoc in He. rewrite <- (app_assoc _ gerrs), <- (app_assoc _ (gerrs ++ concat cperrs)), <- (app_assoc gerrs) in He.
      rewrite !in_app_iff in He. unfold located.
      assert (Hcomp : forall path kind w, bad_composite re_ok ordered l path kind -> leads path (JObj l) w ->
        (forall r, se_refs (SErr r kind) = [r]) -> tells (JObj l) ref faults (SErr (reference ref path) kind)).
      { intros path kind w Hb Hl Hs. eapply tells_at; [apply fault_composite; exact Hb | exact Hl | reflexivity | apply Hs]. }
      destruct He as [[[[He|He]|He]|He]|He].
      + left. apply Htop in He. destruct He as [(Ho & k & v & r & El & Hk & ->) | (Ho & a & k & v & r & El & Hk & ->)].
        * eapply Hcomp; [eapply bad_first_key; eauto | eapply leads_one; exact N1 | reflexivity].
        * destruct shape as (_ & _ & (d & Hd & _) & _). eapply Hcomp; [eapply bad_second_key; eauto | eapply leads_one; exact Hd | reflexivity].
      + left. apply Hnames in He. destruct He as (i & path & c & j & path' & c' & n & A1 & A2 & A3 & A4 & A5 & ->).
        eapply Hcomp; [eapply bad_name; eauto | eapply leads_app; [eapply composite_leads; eauto | eapply leads_one; exact A2] | reflexivity].
      + left. apply Hcls in He. destruct He as (i & j & c & ys & Hat & Hy & He).
        destruct (composite_shape _ _ _ Hat) as (Hcn & _ & Hip). assert (Hld := composite_leads _ _ _ Hat).
        apply (class_part _ _ _ Hcn (Hip _ eq_refl) Hy) in He. rewrite <- !reference_app in He. cbn [app] in He.
        destruct He as [(p & Hp & Hr & ->) | (ps & Hps & Hi & ->)].
        * eapply Hcomp; [eapply bad_id_pattern; eauto | exact (leads_app _ _ _ _ Hld _ (leads_one _ _ _ Hp)) | reflexivity].
        * eapply Hcomp; [eapply bad_id; eauto | exact (leads_app _ _ _ _ Hld _ (leads_one _ _ _ Hps)) | reflexivity].
      + left. rewrite <- !in_app_iff in He. apply Hprops' in He. destruct He as (i & path & c & ys & Hat & Hy & He).
        destruct (composite_shape _ _ _ Hat) as (Hcn & _ & _). assert (Hld := composite_leads _ _ _ Hat).
        destruct (properties_part _ _ _ _ Hcn Hy) as [_ Hpart]. apply Hpart in He. rewrite <- !reference_app in He.
        destruct He as (ps & n & p & Hps & Hp & [[Hn ->] | He]).
        * eapply Hcomp; [eapply bad_property_name; eauto; eapply in_map_iff; exists (n, p); auto | exact (leads_app _ _ _ _ Hld _ (leads_one _ _ _ Hps)) | reflexivity].
        * rewrite <- reference_app in He. destruct (Hpp _ _ _ _ _ _ Hat Hps Hp) as (Hwp & Htp & Hlp).
          apply (type_error re_ok ordered types (type_name l) Htypes p true _ _ Hwp Htp) in He.
          eapply tells_below; [exact He | exact Hlp|]. intros sub Hb. rewrite <- app_assoc. cbn [app]. eapply fault_definition; eauto.
      + right. apply Hplural1. exact He.
    - intros path kind Hb. rewrite !in_app_iff.
      destruct Hb as [k v r Ho El Hk|a k v r Ho El Hk|i path c j path' c' n A1 A2 A3 A4 A5|i j c p A1 A2 A3|i j c ps A1 A2 A3|i path c ps n A1 A2 A3 A4].
      + left. apply Htop. left. eauto 8.
      + left. apply Htop. right. eauto 8.
      + right. left. apply Hnames. exists i, path, c, j, path', c', n. auto 8.
      + right. right. left. apply Hcls. destruct (composite_shape _ _ _ A1) as (Hcn & _ & Hip).
        assert (Hex : exists es, validate_class re_ok (reference ref [s_ "classes"; j]) c = Ok es).
        { unfold validate_class. destruct (lookup (s_ "properties") c) as [v|] eqn:El; [|eauto]. apply lookup_In in El.
          destruct (composite_shape _ _ _ A1) as (_ & Hj & _). assert (Hwv := proj2 (wf_obj _ (composite_wf _ _ _ A1)) _ _ El).
          apply Hj in El. apply j_properties in El; auto. destruct El as (ps & -> & _). cbn [fields bind]. eauto. }
        destruct Hex as (es & Hes). exists i, j, c, es. split; [exact A1|]. split; [exact Hes|].
        apply (class_part _ _ _ Hcn (Hip _ eq_refl) Hes). left. exists p. rewrite <- reference_app. auto.
      + right. right. left. apply Hcls. destruct (composite_shape _ _ _ A1) as (Hcn & _ & Hip).
        assert (Hex : exists es, validate_class re_ok (reference ref [s_ "classes"; j]) c = Ok es).
        { unfold validate_class. apply (In_lookup _ _ _ Hcn) in A2. rewrite A2. cbn [fields bind]. eauto. }
        destruct Hex as (es & Hes). exists i, j, c, es. split; [exact A1|]. split; [exact Hes|].
        apply (class_part _ _ _ Hcn (Hip _ eq_refl) Hes). right. exists ps. rewrite <- reference_app. auto.
      + right. right. right. destruct (Hprops _ _ _ A1) as (es & Hes & Hin). apply Hpin, Hin.
        destruct (composite_shape _ _ _ A1) as (Hcn & _ & _). destruct (properties_part _ _ _ _ Hcn Hes) as [_ Hpart]. apply Hpart.
        destruct (keys_value _ _ A3) as (p & Hp). exists ps, n, p. rewrite <- reference_app. auto 6.
    - intros i path c ps n p sub kind Hat Hps Hp Hb. destruct (Hprops _ _ _ Hat) as (es & Hes & Hin).
      destruct (composite_shape _ _ _ Hat) as (Hcn & _ & _). destruct (properties_part _ _ _ _ Hcn Hes) as [Hok Hpart].
      destruct (Hpp _ _ _ _ _ _ Hat Hps Hp) as (Hwp & Htp & Hlp). destruct (Hok _ _ _ Hps Hp) as (o & Ho). rewrite <- reference_app in Ho.
      destruct o as [e|].
      + exists e. split.
        * rewrite !in_app_iff. right. right. right. apply Hpin, Hin, Hpart.
          exists ps, n, p. rewrite <- !reference_app. auto.
        * apply (type_error re_ok ordered types (type_name l) Htypes p true _ _ Hwp Htp Ho).
      + exfalso. eapply (bad_error re_ok ordered (name :: cns ++ ens) (type_name l) Hcapital Htypes); eauto.
    - intros n cn Hpt. destruct (Hplural2 _ _ Hpt) as (cn' & Hin). exists cn'. rewrite !in_app_iff. auto 10.
  Qed.
End Documents.
