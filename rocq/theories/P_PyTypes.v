(** Proofs about the generated Python module with the types. *)
From Coq Require Import String List Arith NArith ZArith Bool Lia Permutation.
From Verif Require Import Base M_Naming M_Schema M_TypeGraph M_Text M_Validate M_LangValid M_GoImports M_PyTypes
  S_Conform S_Walk S_GoImports S_LangValid S_PyTypes P_Common P_ValidateDoc P_LangValid P_Walk P_GoImports T_Text T_LangValid.
Import ListNotations.
Open Scope list_scope.

(** * Annotations *)
Section Annotations.
  Variable g : graph.
  Variable py : py_conf.
  Hypothesis HR : resolved g.
  Hypothesis HS : known_settings py.
  (** The names of classes and embeds have identifiers. *)
  Hypothesis HC : forall n, In n (map c_name (g_classes g) ++ map e_name (g_embeds g)) -> exists i, as_composite n = Ok i.

  (** The names which the annotations need. *)
  Definition ready (defined : list M_PyTypes.composite) (names : list str) : Prop :=
    incl builtins names /\ In (s_ "typing") names /\
    (occurs g (KPrim PPath) -> pc_path_as py = s_ "pathlib.Path" -> In (s_ "pathlib") names) /\
    (occurs g (KPrim PTimeZone) -> pc_timezone_as py = s_ "pytz.timezone" -> In (s_ "datetime") names) /\
    (occurs g (KPrim PDate) \/ occurs g (KPrim PTime) \/ occurs g (KPrim PDatetime) \/ occurs g (KPrim PDuration) ->
     In (s_ "datetime") names) /\
    forall c i, In c defined -> as_composite (composite_name c) = Ok i -> In i names.

  Lemma composite_eqb_eq a b : composite_eqb a b = true <-> a = b.
  Proof. destruct a, b; cbn; try (split; discriminate); rewrite str_eqb_eq; split; congruence. Qed.

  Lemma of_composite_ok defined names c : ready defined names -> (exists i, as_composite (composite_name c) = Ok i) ->
    exists a, (do n <- as_composite (composite_name c); Ok (if existsb (composite_eqb c) defined then AName n else AText n)) = Ok a /\
      undefined names a = None.
  Proof.
    intros (_ & _ & _ & _ & _ & H) (i & E). rewrite E. cbn [bind]. eexists. split; [reflexivity|].
    destruct (existsb (composite_eqb c) defined) eqn:X; [|reflexivity]. apply existsb_exists in X as (c' & Hc & X).
    apply composite_eqb_eq in X. subst c'. cbn [undefined]. rewrite (proj2 (mem_In i names)); [reflexivity|]. eapply H; eauto.
  Qed.

  Lemma builtin_ok names n : incl builtins names -> In n builtins -> undefined names (AName n) = None.
  Proof. intros H Hn. cbn [undefined]. rewrite (proj2 (mem_In n names)); [reflexivity|]. now apply H. Qed.
  Lemma attr_ok names m a : In m names -> undefined names (AAttr m a) = None.
  Proof. intros H. cbn [undefined]. now rewrite (proj2 (mem_In m names)). Qed.

  Lemma annotation_ok defined names t : ready defined names -> forall ref, value_type g t ref ->
    exists a, type_annotation py defined t = Ok a /\ undefined names a = None.
  Proof.
    intros HN. assert (HN' := HN). destruct HN as (B & T & PA & TZ & DT & _).
    assert (OC : forall t ref k, value_type g t ref -> type_kind t = Some k -> occurs g k) by (intros t0 ref0 k H1 H2; exists t0, ref0; auto).
    assert (BI : forall n, In n builtins -> exists a, Ok (AName n) = Ok a /\ undefined names a = None)
      by (intros n Hn; eexists; split; [reflexivity|now apply builtin_ok]).
    assert (DA : forall n, In (s_ "datetime") names -> exists a, Ok (AAttr (s_ "datetime") n) = Ok a /\ undefined names a = None)
      by (intros n Hn; eexists; split; [reflexivity|now apply attr_ok]).
    assert (STEP : forall t v ref, value_type g t ref -> (exists mn mx, t = TArray v mn mx) \/ t = TMap v -> exists r, value_type g v r).
    { intros t0 v ref [r ps p n Hcomp Hp Hin _] Hv. eexists. econstructor; [exact Hcomp|exact Hp|eapply inside_step; eauto|reflexivity]. }
    assert (CR : forall t ref, value_type g t ref -> ty_resolved g t).
    { intros t0 ref [r ps p n Hcomp Hp Hin _]. assert (H := HR _ _ (composite_In _ _ _ Hcomp) Hp). clear -H Hin.
      revert H. induction Hin; cbn [ty_resolved]; auto. }
    induction t; intros ref Hv; cbn [type_annotation].
    - apply BI. now left.
    - apply BI. right; now left.
    - apply BI. do 2 right; now left.
    - apply BI. do 3 right; now left.
    - destruct HS as ([E|[E|[]]] & _); rewrite <- E.
      + rewrite str_eqb_refl. apply BI. do 3 right; now left.
      + destruct (str_eqb (s_ "pathlib.Path") (s_ "str")) eqn:X; [apply BI; do 3 right; now left|]. rewrite str_eqb_refl.
        eexists. split; [reflexivity|]. apply attr_ok. apply PA; [|congruence]. eapply OC; [exact Hv|reflexivity].
    - apply DA, DT. left. eapply OC; [exact Hv|reflexivity].
    - apply DA, DT. right; left. eapply OC; [exact Hv|reflexivity].
    - apply DA, DT. right; right; left. eapply OC; [exact Hv|reflexivity].
    - destruct HS as (_ & [E|[E|[]]]); rewrite <- E.
      + rewrite str_eqb_refl. apply BI. do 3 right; now left.
      + destruct (str_eqb (s_ "pytz.timezone") (s_ "str")) eqn:X; [apply BI; do 3 right; now left|]. rewrite str_eqb_refl.
        apply DA, TZ; [|congruence]. eapply OC; [exact Hv|reflexivity].
    - apply DA, DT. do 3 right. eapply OC; [exact Hv|reflexivity].
    - edestruct STEP as (r & Hr); [exact Hv|left; eauto|]. destruct (IHt _ Hr) as (a & -> & Ha). cbn [bind].
      eexists. split; [reflexivity|]. cbn [undefined]. rewrite (proj2 (mem_In _ _) T). cbn [fold_right]. now rewrite Ha.
    - edestruct STEP as (r & Hr); [exact Hv|right; eauto|]. destruct (IHt _ Hr) as (a & -> & Ha). cbn [bind].
      eexists. split; [reflexivity|]. cbn [undefined]. rewrite (proj2 (mem_In _ _) T). cbn [fold_right]. rewrite Ha.
      now rewrite (builtin_ok names (s_ "str") B ltac:(do 3 right; now left)).
    - apply (of_composite_ok defined names (CClass name) HN'). apply HC. apply in_or_app. left.
      apply find_class_name. exact (CR _ _ Hv).
    - apply (of_composite_ok defined names (CEmbed name) HN'). apply HC. apply in_or_app. right.
      apply find_embed_name. exact (CR _ _ Hv).
  Qed.

  Lemma optional_ok names a : In (s_ "typing") names -> undefined names a = None -> undefined names (optional_of a) = None.
  Proof. intros H Ha. cbn [optional_of undefined]. rewrite (proj2 (mem_In _ _) H). cbn [fold_right]. now rewrite Ha. Qed.

  Lemma property_params_ok defined names ps : ready defined names ->
    (forall p, In p ps -> p_name p <> [] /\ exists ref, value_type g (p_type p) ref) ->
    exists params, property_params py defined ps = Ok params /\
      map pa_name params = map (fun p => lower (p_name p)) ps /\ map pa_default params = map p_optional ps /\
      forall q, In q params -> undefined names (pa_annotation q) = None.
  Proof.
    intros HN. induction ps as [|p ps IH]; intros H; [exists []; repeat split; intros q []|].
    destruct IH as (params & E1 & E2 & E3 & E4); [intros q Hq; apply H; now right|].
    destruct (H p (or_introl eq_refl)) as (Hne & ref & Hv). destruct (annotation_ok _ _ _ HN _ Hv) as (a & Ea & Ua).
    unfold property_params in *. cbn [mapM].
    assert (EA : as_attribute (p_name p) = Ok (lower (p_name p))) by (destruct (p_name p); [congruence|reflexivity]).
    rewrite EA, Ea. cbn [bind]. rewrite E1. cbn [bind]. eexists. split; [reflexivity|]. cbn [map]. rewrite E2, E3.
    split; [destruct (p_optional p); reflexivity|]. split; [destruct (p_optional p); reflexivity|].
    intros q [<-|Hq]; [|now apply E4]. destruct (p_optional p); cbn [pa_annotation]; [|exact Ua]. apply optional_ok; [apply HN|exact Ua].
  Qed.
End Annotations.

Lemma property_statements_ok ps : (forall p, In p ps -> p_name p <> []) ->
  property_statements ps = Ok (map (fun p => if p_optional p then SetOptional (lower (p_name p)) else SetAttr (lower (p_name p))) ps).
Proof.
  unfold property_statements. induction ps as [|p ps IH]; intros H; [reflexivity|]. cbn [mapM map].
  assert (EA : as_attribute (p_name p) = Ok (lower (p_name p))) by (destruct (p_name p) eqn:E; [now apply (H p (or_introl eq_refl)) in E|reflexivity]).
  rewrite EA. cbn [bind]. rewrite IH by (intros q Hq; apply H; now right). reflexivity.
Qed.

Lemma repeated_NoDup l : NoDup l -> repeated l = false.
Proof.
  induction 1 as [|a l Ha _ IH]; [reflexivity|]. cbn [repeated]. rewrite IH, orb_false_r.
  destruct (mem a l) eqn:E; [|reflexivity]. now apply mem_In in E.
Qed.

Lemma order_defaults ps params : map pa_default params = map p_optional (order_by_optional ps) -> defaults_last params false = true.
Proof.
  destruct (C45_order_by_optional ps) as (_ & (req & opt & -> & Hr & Ho) & _). rewrite map_app.
  revert params. induction Hr as [|p req Hp _ IH]; intros params E.
  - cbn [map app] in E. assert (G : forall b, defaults_last params b = true); [|apply G].
    revert params E. induction Ho as [|q opt Hq _ IH]; intros [|x params] E b; cbn [map] in E; try discriminate; [reflexivity|].
    injection E as E1 E2. cbn [defaults_last]. rewrite E1, Hq. now apply IH.
  - destruct params as [|x params]; [discriminate|]. cbn [map app] in E. injection E as E1 E2. cbn [defaults_last]. rewrite E1, Hp.
    cbn [negb andb]. now apply IH.
Qed.
Lemma defaults_app l1 l2 b : defaults_last l1 b = true -> (forall q, In q l2 -> pa_default q = true) -> defaults_last (l1 ++ l2) b = true.
Proof.
  intros H1 H2. revert b H1. induction l1 as [|x l1 IH]; intros b H1; cbn [app].
  - clear H1. revert b. induction l2 as [|y l2 IH]; intros b; [reflexivity|]. cbn [defaults_last]. rewrite (H2 y (or_introl eq_refl)).
    apply IH. intros q Hq. apply H2. now right.
  - cbn [defaults_last] in *. destruct (pa_default x); [now apply IH|]. apply andb_true_iff in H1 as (-> & H1). cbn [andb]. now apply IH.
Qed.

Lemma usable_lowered names : usable python36_keywords lowered names ->
  NoDup (map lower names) /\ (forall n, In n names -> n <> [] /\ ~ In (lower n) python36_keywords).
Proof.
  intros (ids & F & N & K). assert (E : ids = map lower names).
  { clear -F. induction F as [|n i names ids (_ & Hi) _ IH]; [reflexivity|]. cbn [map]. now rewrite <- IH, Hi. }
  subst ids. split; [exact N|]. intros n Hn. split; [|now apply K, in_map].
  destruct (Forall2_In_l _ _ _ F _ Hn) as (i & _ & (Hne & _)). exact Hne.
Qed.
Lemma usable_camel names : usable python36_keywords camel_composite names ->
  forall n, In n names -> exists i, as_composite n = Ok i /\ ~ In i python36_keywords.
Proof.
  intros (ids & F & N & K) n Hn. destruct (Forall2_In_l _ _ _ F _ Hn) as (i & Hi & H). exists i. split; [now apply as_composite_camel|now apply K].
Qed.

(** * The definitions *)

Definition statement_of (p : prop) : statement := if p_optional p then SetOptional (lower (p_name p)) else SetAttr (lower (p_name p)).

(** What the constructors look like. *)
Definition class_shape (c : cls) (d : definition) : Prop :=
  let ps := order_by_optional (c_props c) in
  as_composite (c_name c) = Ok (de_name d) /\
  exists params, de_init d = Some (params, SetAttr (s_ "id") :: map statement_of ps) /\
    map pa_name params = s_ "id" :: map (fun p => lower (p_name p)) ps /\
    map pa_default params = false :: map p_optional ps.
Definition embed_shape (e : embed) (d : definition) : Prop :=
  let ps := order_by_optional (e_props e) in
  as_composite (e_name e) = Ok (de_name d) /\
  (e_props e = [] /\ de_init d = None \/
   exists params, de_init d = Some (params, map statement_of ps) /\
    map pa_name params = map (fun p => lower (p_name p)) ps /\ map pa_default params = map p_optional ps).
Definition graph_shape (g : graph) (d : definition) : Prop :=
  let ps := order_by_optional (g_props g) in
  as_composite (g_name g) = Ok (de_name d) /\
  (g_props g = [] /\ g_classes g = [] /\ de_init d = None \/
   exists params, de_init d = Some (params, map statement_of ps ++ map (fun c => SetRegistry (lower (c_plural c))) (g_classes g)) /\
    map pa_name params = map (fun p => lower (p_name p)) ps ++ map (fun c => lower (c_plural c)) (g_classes g) /\
    map pa_default params = map p_optional ps ++ map (fun _ => true) (g_classes g)).

(** The annotations are defined. *)
Definition annotated (names : list str) (d : definition) : Prop :=
  match de_init d with None => True | Some (params, _) => forall q, In q params -> undefined names (pa_annotation q) = None end.

Lemma annotated_run names d ds : annotated names d -> run_definitions names (d :: ds) = run_definitions (names ++ [de_name d]) ds.
Proof.
  unfold annotated. cbn [run_definitions]. destruct (de_init d) as [(params, body)|]; [|reflexivity]. intros H.
  assert (first_undefined names (map pa_annotation params) = None) as ->; [|reflexivity].
  unfold first_undefined. induction params as [|q params IH]; [reflexivity|]. cbn [map fold_right]. rewrite (H q (or_introl eq_refl)).
  apply IH. intros q' Hq. apply H. now right.
Qed.

Lemma ready_more g py defined names c i : ready g py defined names -> as_composite (composite_name c) = Ok i ->
  ready g py (defined ++ [c]) (names ++ [i]).
Proof.
  intros (B & T & PA & TZ & DT & H) E. repeat split.
  - intros x Hx. apply in_or_app. left. now apply B.
  - apply in_or_app. now left.
  - intros. apply in_or_app. left. now apply PA.
  - intros. apply in_or_app. left. now apply TZ.
  - intros. apply in_or_app. left. now apply DT.
  - intros c' i' Hc E'. apply in_or_app. apply in_app_or in Hc as [Hc|[<-|[]]]; [left; eapply H; eauto|]. right. left. congruence.
Qed.

Lemma define_all_run g py {A} (define : list M_PyTypes.composite -> A -> res definition) as_comp (shape : A -> definition -> Prop) kws l :
  (forall x d, shape x d -> as_composite (composite_name (as_comp x)) = Ok (de_name d)) ->
  (forall x, In x l -> forall defined names, ready g py defined names ->
     exists d, define defined x = Ok d /\ shape x d /\ syntax_ok kws d = true /\ annotated names d) ->
  forall defined names, ready g py defined names ->
  exists ds, define_all define as_comp defined l = Ok ds /\ Forall2 shape l ds /\ forallb (syntax_ok kws) ds = true /\
    (forall tail, run_definitions names (ds ++ tail) = run_definitions (names ++ map de_name ds) tail) /\
    ready g py (defined ++ map as_comp l) (names ++ map de_name ds).
Proof.
  intros HN. induction l as [|x l IH]; intros H defined names R.
  - exists []. cbn [map]. rewrite !app_nil_r. repeat split; auto; apply R.
  - destruct (H x (or_introl eq_refl) _ _ R) as (d & E & S & Y & An). cbn [define_all]. rewrite E. cbn [bind].
    destruct (IH (fun y Hy => H y (or_intror Hy)) (defined ++ [as_comp x]) (names ++ [de_name d])) as (ds & E2 & F & Y2 & Run & R2).
    { apply ready_more; [exact R|]. now apply HN. }
    rewrite E2. cbn [bind]. exists (d :: ds). cbn [map forallb app]. rewrite Y, Y2. repeat (rewrite <- app_assoc in R2; cbn [app] in R2).
    split; [reflexivity|]. split; [now constructor|]. split; [reflexivity|]. split; [|exact R2].
    intros tail. rewrite annotated_run by exact An. rewrite Run, <- app_assoc. reflexivity.
Qed.

Section Module.
  Variable g : graph.
  Variable py : py_conf.
  Hypothesis HR : resolved g.
  Hypothesis HS : known_settings py.
  Hypothesis NC : no_clash_but_graph python36_keywords lowered camel_composite (s_ "id") g.
  Hypothesis SELF : no_attribute (s_ "self") g.

  Lemma composite_ids n : In n (map c_name (g_classes g) ++ map e_name (g_embeds g)) -> exists i, as_composite n = Ok i /\ ~ In i python36_keywords.
  Proof. destruct NC as (_ & H & _). now apply usable_camel. Qed.
  Lemma composite_ids' n : In n (map c_name (g_classes g) ++ map e_name (g_embeds g)) -> exists i, as_composite n = Ok i.
  Proof. intros H. destruct (composite_ids n H) as (i & Hi & _). eauto. Qed.

  Lemma property_values ps : In ps (composites g) -> forall p, In p ps -> exists ref, value_type g (p_type p) ref.
  Proof.
    intros H p Hp. destruct (composites_composite _ _ H) as (r & Hr). eexists. econstructor; [exact Hr|exact Hp|constructor|reflexivity].
  Qed.

  Lemma ordered_names ps : Permutation (map (fun p => lower (p_name p)) ps) (map (fun p => lower (p_name p)) (order_by_optional ps)).
  Proof. apply Permutation_map. apply C45_order_by_optional. Qed.
  Lemma ordered_In ps p : In p (order_by_optional ps) <-> In p ps.
  Proof. destruct (C45_order_by_optional ps) as (H & _). split; apply Permutation_in; [now symmetry|exact H]. Qed.

  Lemma syntax_names kws i params body :
    ~ In i kws -> NoDup (s_ "self" :: map pa_name params) -> (forall n, In n (s_ "self" :: map pa_name params) -> ~ In n kws) ->
    defaults_last params false = true -> syntax_ok kws (Definition_ i (Some (params, body))) = true.
  Proof.
    intros Hi N K D. unfold syntax_ok. cbn [de_name de_init]. rewrite (repeated_NoDup _ N), D.
    destruct (mem i kws) eqn:E; [apply mem_In in E; contradiction|].
    destruct (existsb _ _) eqn:X; [|reflexivity]. apply existsb_exists in X as (n & Hn & X). apply mem_In in X. now apply K in Hn.
  Qed.

  Lemma self_no_keyword : ~ In (s_ "self") python36_keywords.
  Proof. intros H. apply mem_In in H. vm_compute in H. discriminate. Qed.
  Lemma id_no_keyword : ~ In (s_ "id") python36_keywords.
  Proof. intros H. apply mem_In in H. vm_compute in H. discriminate. Qed.
  Lemma id_not_self : s_ "id" <> s_ "self".
  Proof. discriminate. Qed.

  Lemma class_defined c : In c (g_classes g) -> forall defined names, ready g py defined names ->
    exists d, define_class py defined c = Ok d /\ class_shape c d /\ syntax_ok python36_keywords d = true /\ annotated names d.
  Proof.
    intros Hc defined names R. destruct (composite_ids (c_name c)) as (i & Ei & Ki); [apply in_or_app; left; now apply in_map|].
    destruct NC as (_ & _ & FC & _ & _). destruct (FC c Hc) as (U & Own). apply usable_lowered in U as (N & U). rewrite map_map in N.
    assert (Hps : In (c_props c) (composites g)) by (apply in_or_app; left; now apply in_map).
    set (ps := order_by_optional (c_props c)).
    assert (Hin : forall p, In p ps -> In p (c_props c)) by (intros p; apply ordered_In).
    destruct (property_params_ok g py HR HS composite_ids' defined names ps R) as (params & E1 & E2 & E3 & E4).
    { intros p Hp. apply Hin in Hp. split; [apply U; now apply in_map|]. eapply property_values; eauto. }
    unfold define_class. fold ps. rewrite Ei, E1. cbn [bind]. rewrite property_statements_ok by (intros p Hp; apply U, in_map, Hin, Hp). cbn [bind].
    eexists. split; [reflexivity|]. split; [|split].
    - unfold class_shape. fold ps. cbn [de_name de_init]. split; [exact Ei|]. eexists. split; [reflexivity|]. cbn [map pa_name pa_default]. now rewrite E2, E3.
    - apply syntax_names; [exact Ki| | |].
      + cbn [map pa_name]. rewrite E2. constructor; [|constructor].
        * intros [H|H]; [now apply id_not_self|]. apply in_map_iff in H as (p & Ep & Hp). destruct SELF as (Hs & _). now apply (Hs _ p Hps (Hin _ Hp)).
        * intros H. apply in_map_iff in H as (p & Ep & Hp). apply (Own p (Hin _ Hp)). split; [apply U, in_map, Hin, Hp|now rewrite Ep].
        * eapply Permutation_NoDup; [apply ordered_names|exact N].
      + cbn [map pa_name]. rewrite E2. intros n [<-|[<-|H]]; [apply self_no_keyword|apply id_no_keyword|].
        apply in_map_iff in H as (p & <- & Hp). apply U, in_map, Hin, Hp.
      + cbn [defaults_last pa_default negb andb]. apply (order_defaults (c_props c)). exact E3.
    - intros q [<-|Hq]; [|now apply E4]. cbn [pa_annotation]. apply builtin_ok; [apply R|do 3 right; now left].
  Qed.

  Lemma embed_defined e : In e (g_embeds g) -> forall defined names, ready g py defined names ->
    exists d, define_embed py defined e = Ok d /\ embed_shape e d /\ syntax_ok python36_keywords d = true /\ annotated names d.
  Proof.
    intros He defined names R. destruct (composite_ids (e_name e)) as (i & Ei & Ki); [apply in_or_app; right; now apply in_map|].
    unfold define_embed. rewrite Ei. cbn [bind]. destruct (e_props e) as [|p0 ps0] eqn:Eps.
    { eexists. split; [reflexivity|]. split; [unfold embed_shape; cbn [de_name de_init]; auto|]. split; [|exact I].
      unfold syntax_ok. cbn [de_name de_init]. destruct (mem i _) eqn:E; [apply mem_In in E; contradiction|reflexivity]. }
    rewrite <- Eps. clear Eps p0 ps0.
    destruct NC as (_ & _ & _ & FE & _). assert (U := FE e He). apply usable_lowered in U as (N & U). rewrite map_map in N.
    assert (Hps : In (e_props e) (composites g)) by (apply in_or_app; right; apply in_or_app; left; now apply in_map).
    set (ps := order_by_optional (e_props e)).
    assert (Hin : forall p, In p ps -> In p (e_props e)) by (intros p; apply ordered_In).
    destruct (property_params_ok g py HR HS composite_ids' defined names ps R) as (params & E1 & E2 & E3 & E4).
    { intros p Hp. apply Hin in Hp. split; [apply U; now apply in_map|]. eapply property_values; eauto. }
    rewrite E1. cbn [bind]. rewrite property_statements_ok by (intros p Hp; apply U, in_map, Hin, Hp). cbn [bind].
    eexists. split; [reflexivity|]. split; [|split].
    - unfold embed_shape. fold ps. cbn [de_name de_init]. split; [exact Ei|]. right. eexists. split; [reflexivity|]. now rewrite E2, E3.
    - apply syntax_names; [exact Ki| | |].
      + rewrite E2. constructor.
        * intros H. apply in_map_iff in H as (p & Ep & Hp). destruct SELF as (Hs & _). now apply (Hs _ p Hps (Hin _ Hp)).
        * eapply Permutation_NoDup; [apply ordered_names|exact N].
      + rewrite E2. intros n [<-|H]; [apply self_no_keyword|].
        apply in_map_iff in H as (p & <- & Hp). apply U, in_map, Hin, Hp.
      + apply (order_defaults (e_props e)). exact E3.
    - intros q Hq. now apply E4.
  Qed.

  Lemma registry_params defined names : ready g py defined names -> forall l, incl l (g_classes g) ->
    exists params, mapM (fun c =>
        do r <- as_attribute (c_plural c);
        do a <- type_annotation py defined (TClass (c_name c));
        Ok (Param r (optional_of (AOf (s_ "typing") (s_ "MutableMapping") [AName (s_ "str"); a])) true)) l = Ok params /\
      mapM (fun c => do r <- as_attribute (c_plural c); Ok (SetRegistry r)) l = Ok (map (fun c => SetRegistry (lower (c_plural c))) l) /\
      map pa_name params = map (fun c => lower (c_plural c)) l /\ map pa_default params = map (fun _ => true) l /\
      (forall q, In q params -> undefined names (pa_annotation q) = None) /\ (forall q, In q params -> pa_default q = true).
  Proof.
    intros R. induction l as [|c l IH]; intros H; [exists []; repeat split; intros q []|].
    destruct IH as (params & E1 & E2 & E3 & E4 & E5 & E6); [intros x Hx; apply H; now right|].
    assert (Hc : In c (g_classes g)) by (apply H; now left).
    destruct NC as (_ & _ & _ & _ & U). apply usable_lowered in U as (_ & U).
    assert (EA : as_attribute (c_plural c) = Ok (lower (c_plural c))).
    { apply as_attribute_lowered. split; [|reflexivity]. apply U. apply in_or_app. right. now apply in_map. }
    cbn [mapM]. rewrite EA. cbn [bind]. rewrite E1, E2. cbn [bind type_annotation].
    destruct (of_composite_ok g py defined names (CClass (c_name c)) R) as (a & Ea & Ua).
    { apply composite_ids'. apply in_or_app. left. cbn [composite_name]. now apply in_map. }
    cbn [composite_name] in Ea |- *. rewrite Ea. cbn [bind]. eexists. split; [reflexivity|]. split; [reflexivity|]. cbn [map pa_name pa_default]. rewrite E3, E4.
    split; [reflexivity|]. split; [reflexivity|]. split.
    - intros q [<-|Hq]; [|now apply E5]. cbn [pa_annotation]. apply optional_ok; [apply R|]. cbn [undefined].
      rewrite (proj2 (mem_In _ _) (proj1 (proj2 R))). cbn [fold_right]. rewrite Ua.
      now rewrite (builtin_ok names (s_ "str") (proj1 R) ltac:(do 3 right; now left)).
    - intros q [<-|Hq]; [reflexivity|now apply E6].
  Qed.

  Lemma graph_defined defined names : ready g py defined names ->
    exists d, define_graph py defined g = Ok d /\ graph_shape g d /\ syntax_ok python36_keywords d = true /\ annotated names d.
  Proof.
    intros R. destruct NC as (UG & _ & _ & _ & UA). destruct (usable_camel _ UG (g_name g) (or_introl eq_refl)) as (i & Ei & Ki).
    unfold define_graph. rewrite Ei. cbn [bind].
    assert (HE : g_props g = [] /\ g_classes g = [] \/ (g_props g <> [] \/ g_classes g <> [])).
    { destruct (g_props g), (g_classes g); auto; right; (left + right); discriminate. }
    destruct HE as [(EP & EC)|HE].
    { rewrite EP, EC. eexists. split; [reflexivity|]. split; [unfold graph_shape; cbn [de_name de_init]; auto|]. split; [|exact I].
      unfold syntax_ok. cbn [de_name de_init]. destruct (mem i _) eqn:E; [apply mem_In in E; contradiction|reflexivity]. }
    apply usable_lowered in UA as (N & U). rewrite map_app, !map_map in N.
    assert (Hps : In (g_props g) (composites g)) by (apply in_or_app; right; apply in_or_app; right; now left).
    set (ps := order_by_optional (g_props g)).
    assert (Hin : forall p, In p ps -> In p (g_props g)) by (intros p; apply ordered_In).
    assert (Hne : forall p, In p ps -> p_name p <> []) by (intros p Hp; apply U, in_or_app; left; now apply in_map, Hin).
    destruct (property_params_ok g py HR HS composite_ids' defined names ps R) as (params & E1 & E2 & E3 & E4).
    { intros p Hp. split; [now apply Hne|]. eapply property_values; [exact Hps|now apply Hin]. }
    destruct (registry_params defined names R (g_classes g) (incl_refl _)) as (regs & F1 & F2 & F3 & F4 & F5 & F6).
    assert (D : exists d, (do params <- property_params py defined ps;
      do registries <- mapM (fun c =>
        do r <- as_attribute (c_plural c);
        do a <- type_annotation py defined (TClass (c_name c));
        Ok (Param r (optional_of (AOf (s_ "typing") (s_ "MutableMapping") [AName (s_ "str"); a])) true)) (g_classes g);
      do body <- property_statements ps;
      do rest <- mapM (fun c => do r <- as_attribute (c_plural c); Ok (SetRegistry r)) (g_classes g);
      Ok (Definition_ i (Some (params ++ registries, body ++ rest)))) = Ok d /\
      graph_shape g d /\ syntax_ok python36_keywords d = true /\ annotated names d).
    2:{ destruct (g_props g), (g_classes g); [destruct HE; congruence| | |]; exact D. }
    rewrite E1, F1. cbn [bind]. rewrite property_statements_ok by exact Hne. cbn [bind]. rewrite F2. cbn [bind].
    eexists. split; [reflexivity|]. split; [|split].
    - unfold graph_shape. fold ps. cbn [de_name de_init]. split; [exact Ei|]. right. eexists. split; [reflexivity|].
      rewrite !map_app, E2, E3, F3, F4. auto.
    - apply syntax_names; [exact Ki| | |].
      + rewrite map_app, E2, F3. constructor.
        * intros H. destruct SELF as (H1 & H2). apply in_app_or in H as [H|H]; apply in_map_iff in H as (p & Ep & Hp).
          -- now apply (H1 _ p Hps (Hin _ Hp)).
          -- now apply (H2 _ Hp).
        * eapply Permutation_NoDup; [apply Permutation_app; [apply ordered_names|apply Permutation_refl]|exact N].
      + rewrite map_app, E2, F3. intros n [<-|H]; [apply self_no_keyword|].
        apply in_app_or in H as [H|H]; apply in_map_iff in H as (p & <- & Hp).
        * apply U, in_or_app. left. now apply in_map, Hin.
        * apply U, in_or_app. right. now apply in_map.
      + apply defaults_app; [|exact F6]. apply (order_defaults (g_props g)). exact E3.
    - intros q Hq. apply in_app_or in Hq as [Hq|Hq]; auto.
  Qed.

  Lemma imports_ok : exists imports, py_types_imports py g = Ok imports /\ ready g py [] (builtins ++ imports) /\
    (g_classes g <> [] -> In (s_ "collections") imports).
  Proof.
    unfold py_types_imports. destruct HS as (HP & HT).
    assert (P1 : exists l, (if graph_needs g (KPrim PPath) then
                 if str_eqb (pc_path_as py) (s_ "str") then Ok []
                 else if str_eqb (pc_path_as py) (s_ "pathlib.Path") then Ok [s_ "pathlib"]
                 else Raise NotImplementedError
               else Ok []) = Ok l /\ (occurs g (KPrim PPath) -> pc_path_as py = s_ "pathlib.Path" -> In (s_ "pathlib") l)).
    { assert (S := graph_needs_spec g HR (KPrim PPath) ltac:(discriminate) ltac:(discriminate) ltac:(discriminate)).
      destruct (graph_needs g (KPrim PPath)) eqn:X; [|eexists; split; [reflexivity|intros H; apply S in H; discriminate]].
      destruct HP as [E|[E|[]]]; rewrite <- E; [rewrite str_eqb_refl; eexists; split; [reflexivity|discriminate]|].
      eexists. split; [reflexivity|]. intros _ _. now left. }
    assert (P2 : exists l, (if graph_needs g (KPrim PTimeZone) then
                 if str_eqb (pc_timezone_as py) (s_ "str") then Ok []
                 else if str_eqb (pc_timezone_as py) (s_ "pytz.timezone") then Ok [s_ "datetime"]
                 else Raise NotImplementedError
               else Ok []) = Ok l /\ (occurs g (KPrim PTimeZone) -> pc_timezone_as py = s_ "pytz.timezone" -> In (s_ "datetime") l)).
    { assert (S := graph_needs_spec g HR (KPrim PTimeZone) ltac:(discriminate) ltac:(discriminate) ltac:(discriminate)).
      destruct (graph_needs g (KPrim PTimeZone)) eqn:X; [|eexists; split; [reflexivity|intros H; apply S in H; discriminate]].
      destruct HT as [E|[E|[]]]; rewrite <- E; [rewrite str_eqb_refl; eexists; split; [reflexivity|discriminate]|].
      eexists. split; [reflexivity|]. intros _ _. now left. }
    destruct P1 as (l1 & -> & P1). destruct P2 as (l2 & -> & P2). cbn [bind].
    eexists. split; [reflexivity|].
    assert (PD : forall q, In q [PDate; PTime; PDatetime; PDuration] -> occurs g (KPrim q) ->
      existsb (fun q => graph_needs g (KPrim q)) [PDate; PTime; PDatetime; PDuration] = true).
    { intros q Hq Ho. apply existsb_exists. exists q. split; [exact Hq|].
      apply (graph_needs_spec g HR (KPrim q) ltac:(discriminate) ltac:(discriminate) ltac:(discriminate)). exact Ho. }
    split.
    - repeat split.
      + intros x Hx. apply in_or_app. now left.
      + apply in_or_app. right. now left.
      + intros H1 H2. rewrite !in_app_iff. right. right. left. now apply P1.
      + intros H1 H2. rewrite !in_app_iff. right. right. right. left. now apply P2.
      + intros H. assert (X : existsb (fun q => graph_needs g (KPrim q)) [PDate; PTime; PDatetime; PDuration] = true).
        { destruct H as [H|[H|[H|H]]]; eapply PD; try exact H; cbn [In]; tauto. }
        rewrite X, !in_app_iff. right. right. right. right. left. now left.
      + intros c i [].
    - intros H. rewrite !in_app_iff. right. right. right. right. destruct (g_classes g); [congruence|now left].
  Qed.

  (** The module. *)
  Lemma module_ok : exists m cs es d, types_module py g = Ok m /\ mo_definitions m = cs ++ es ++ [d] /\
    Forall2 class_shape (g_classes g) cs /\ Forall2 embed_shape (g_embeds g) es /\ graph_shape g d /\
    (g_classes g <> [] -> In (s_ "collections") (mo_imports m)) /\
    exists names, import_module python36_keywords m = Done names /\ incl (map de_name (mo_definitions m)) names.
  Proof.
    destruct imports_ok as (imports & EI & R0 & HI).
    destruct (define_all_run g py (define_class py) (fun c => CClass (c_name c)) class_shape python36_keywords (g_classes g)
      (fun c d H => proj1 H) class_defined [] _ R0) as (cs & E1 & F1 & Y1 & Run1 & R1).
    destruct (define_all_run g py (define_embed py) (fun e => CEmbed (e_name e)) embed_shape python36_keywords (g_embeds g)
      (fun c d H => proj1 H) embed_defined _ _ R1) as (es & E2 & F2 & Y2 & Run2 & R2).
    destruct (graph_defined _ _ R2) as (d & E3 & S3 & Y3 & An).
    unfold types_module. rewrite EI. cbn [bind]. rewrite E1. cbn [bind]. cbn [app] in E2, E3. rewrite E2. cbn [bind]. rewrite E3. cbn [bind].
    do 4 eexists. split; [reflexivity|]. cbn [mo_definitions mo_imports]. split; [reflexivity|]. do 4 (split; [assumption|]).
    unfold import_module. cbn [mo_definitions mo_imports]. rewrite !forallb_app, Y1, Y2. cbn [forallb]. rewrite Y3. cbn [andb].
    rewrite Run1, Run2, annotated_run by exact An. cbn [run_definitions]. eexists. split; [reflexivity|].
    intros x Hx. rewrite !map_app in Hx. cbn [map] in Hx. rewrite !in_app_iff in *. tauto.
  Qed.
End Module.

(** * Constructors *)
Section Construct.
  Variable V : Type.
  Implicit Types args env attrs : list (str * value V).

  Definition attr_of (st : statement) : str := match st with SetAttr a | SetOptional a | SetRegistry a => a end.
  Definition is_registry (st : statement) : bool := match st with SetRegistry _ => true | _ => false end.

  Definition value_of args (p : param) : value V := match lookup (pa_name p) args with Some v => v | None => VNone end.

  Lemma bind_ok ps args : (forall p, In p ps -> pa_default p = false -> In (pa_name p) (keys args)) ->
    bind_params V ps args = Done (map (fun p => (pa_name p, value_of args p)) ps).
  Proof.
    induction ps as [|p ps IH]; intros H; [reflexivity|]. cbn [bind_params map]. rewrite IH by (intros q Hq; apply H; now right).
    assert (EV : value_of args p = match lookup (pa_name p) args with Some v => v | None => VNone end) by reflexivity. rewrite EV.
    destruct (lookup (pa_name p) args) eqn:E; [reflexivity|]. destruct (pa_default p) eqn:D; [reflexivity|].
    specialize (H p (or_introl eq_refl) D). apply lookup_None in E. contradiction.
  Qed.
  Lemma bind_missing ps args : (exists p, In p ps /\ pa_default p = false /\ ~ In (pa_name p) (keys args)) ->
    exists n, bind_params V ps args = Failed (MissingArgument n) /\ ~ In n (keys args).
  Proof.
    induction ps as [|p ps IH]; intros (q & Hq & D & Hk); [destruct Hq|]. cbn [bind_params].
    destruct (lookup (pa_name p) args) eqn:E.
    - destruct Hq as [<-|Hq]; [apply lookup_None in Hk; congruence|]. destruct IH as (n & -> & Hn); eauto.
    - destruct (pa_default p) eqn:D'; [|eexists; split; [reflexivity|now apply lookup_None]].
      destruct Hq as [<-|Hq]; [congruence|]. destruct IH as (n & -> & Hn); eauto.
  Qed.

  Definition outcome_of env (st : statement) : value V :=
    match lookup (attr_of st) env with
    | None => VNone
    | Some v => if is_registry st then match v with VNone => VEmptyRegistry | _ => v end else v
    end.

  Lemma run_body_ok imports env body : (forall st, In st body -> In (attr_of st) (keys env)) ->
    (existsb is_registry body = true -> ~ In (s_ "collections") (keys env) /\ In (s_ "collections") imports) ->
    forall attrs, NoDup (keys attrs ++ map attr_of body) ->
    run_body V imports env body attrs = Done (attrs ++ map (fun st => (attr_of st, outcome_of env st)) body).
  Proof.
    induction body as [|st body IH]; intros H HC attrs N; [cbn [run_body map]; now rewrite app_nil_r|].
    assert (E : run_statement V imports env st = Done (attr_of st, outcome_of env st)).
    { assert (Hk := H st (or_introl eq_refl)). destruct (lookup (attr_of st) env) as [v|] eqn:E; [|apply lookup_None in E; contradiction].
      unfold outcome_of. rewrite E. destruct st as [a|a|a]; cbn [attr_of run_statement is_registry] in *; rewrite E; try reflexivity.
      destruct v; try reflexivity. destruct HC as (C1 & C2); [reflexivity|]. unfold new_registry.
      apply lookup_None in C1. rewrite C1. now rewrite (proj2 (mem_In _ _) C2). }
    cbn [run_body]. rewrite E. cbn [map] in N |- *. rewrite upsert_fresh.
    2:{ apply NoDup_remove in N as (_ & N). intros X. apply N. apply in_or_app. now left. }
    rewrite IH.
    - now rewrite <- app_assoc.
    - intros st' Hst. apply H. now right.
    - intros X. apply HC. cbn [existsb]. rewrite X. apply orb_true_r.
    - unfold keys. rewrite map_app. cbn [map]. rewrite <- app_assoc. exact N.
  Qed.

  Lemma construct_ok m i params body args :
    map attr_of body = map pa_name params -> NoDup (map pa_name params) ->
    (existsb is_registry body = true -> ~ In (s_ "collections") (map pa_name params) /\ In (s_ "collections") (mo_imports m)) ->
    incl (keys args) (map pa_name params) -> (forall p, In p params -> pa_default p = false -> In (pa_name p) (keys args)) ->
    construct V m (Definition_ i (Some (params, body))) args =
      Done (map (fun st => (attr_of st, outcome_of (map (fun p => (pa_name p, value_of args p)) params) st)) body).
  Proof.
    intros E N HC HI HD. unfold construct. cbn [de_init].
    destruct (find _ _) as [n|] eqn:F.
    { apply find_some in F as (Hn & F). apply HI in Hn. rewrite (proj2 (mem_In _ _) Hn) in F. discriminate. }
    rewrite bind_ok by exact HD.
    assert (K : keys (map (fun p => (pa_name p, value_of args p)) params) = map pa_name params) by (unfold keys; rewrite map_map; reflexivity).
    rewrite run_body_ok; [reflexivity| | |].
    - intros st Hst. rewrite K, <- E. now apply in_map.
    - rewrite K. exact HC.
    - cbn [keys map app]. now rewrite E.
  Qed.

  Lemma construct_fails m i params body args :
    ~ (incl (keys args) (map pa_name params) /\ (forall p, In p params -> pa_default p = false -> In (pa_name p) (keys args))) ->
    exists n, construct V m (Definition_ i (Some (params, body))) args = Failed (UnexpectedArgument n) \/
              construct V m (Definition_ i (Some (params, body))) args = Failed (MissingArgument n).
  Proof.
    intros H. unfold construct. cbn [de_init]. destruct (find _ _) as [n|] eqn:F; [eauto|].
    assert (HI : incl (keys args) (map pa_name params)).
    { intros n Hn. apply (find_none _ _ F) in Hn. apply negb_false_iff in Hn. now apply mem_In in Hn. }
    destruct (bind_missing params args) as (n & -> & _); [|eauto].
    destruct (existsb (fun p => negb (pa_default p) && negb (mem (pa_name p) (keys args))) params) eqn:X.
    - apply existsb_exists in X as (p & Hp & X). apply andb_true_iff in X as (X1 & X2). apply negb_true_iff in X1, X2.
      exists p. repeat split; auto. intros X. apply mem_In in X. congruence.
    - exfalso. apply H. split; [exact HI|]. intros p Hp D. destruct (mem (pa_name p) (keys args)) eqn:M; [now apply mem_In|].
      assert (X' : existsb (fun p => negb (pa_default p) && negb (mem (pa_name p) (keys args))) params = true); [|congruence].
      apply existsb_exists. exists p. split; [exact Hp|]. now rewrite D, M.
  Qed.

  Lemma lookup_params args params n : NoDup (map pa_name params) -> In n (map pa_name params) ->
    lookup n (map (fun p => (pa_name p, value_of args p)) params) = Some match lookup n args with Some v => v | None => VNone end.
  Proof.
    induction params as [|p params IH]; intros N H; [destruct H|]. cbn [map lookup]. destruct (str_eqb n (pa_name p)) eqn:E.
    - apply str_eqb_eq in E. subst n. reflexivity.
    - destruct H as [H|H]; [subst n; rewrite str_eqb_refl in E; discriminate|]. inversion N; subst. now apply IH.
  Qed.
End Construct.

(** * The attributes of new objects *)
Section Attributes.
  Variable V : Type.
  Implicit Types args attrs : list (str * value V).

  Definition given args (a : str) : value V := match lookup a args with Some v => v | None => VNone end.
  Definition stored args (st : statement) : value V :=
    if is_registry st then match given args (attr_of st) with VNone => VEmptyRegistry | v => v end else given args (attr_of st).

  Lemma attributes args params body : map attr_of body = map pa_name params -> NoDup (map pa_name params) ->
    map (fun st => (attr_of st, outcome_of V (map (fun p => (pa_name p, value_of V args p)) params) st)) body =
    map (fun st => (attr_of st, stored args st)) body.
  Proof.
    intros E N. apply map_ext_in. intros st Hst. f_equal. unfold outcome_of.
    rewrite lookup_params; [|exact N|rewrite <- E; now apply in_map]. unfold stored, given.
    destruct (is_registry st); [|reflexivity]. destruct (lookup (attr_of st) args) as [[]|]; reflexivity.
  Qed.

  Lemma given_In args a v : NoDup (keys args) -> In (a, v) args -> given args a = v.
  Proof. intros N H. unfold given. now rewrite (In_lookup _ _ _ N H). Qed.
  Lemma given_missing args a : ~ In a (keys args) -> given args a = VNone.
  Proof. intros H. unfold given. apply lookup_None in H. now rewrite H. Qed.

  Lemma properties_split ps a : In a (map (fun p => lower (p_name p)) (order_by_optional ps)) <-> In a (required_of ps ++ optional_in ps).
  Proof.
    unfold required_of, optional_in. rewrite in_app_iff, !in_map_iff. split.
    - intros (p & Ep & Hp). apply (proj1 (ordered_In _ _)) in Hp. destruct (p_optional p) eqn:O; [right|left]; exists p; (split; [exact Ep|]); apply filter_In; (split; [exact Hp|now rewrite O]).
    - intros [(p & Ep & Hp)|(p & Ep & Hp)]; exists p; (split; [exact Ep|]); apply filter_In in Hp as (Hp & _); now apply ordered_In.
  Qed.

  Lemma statements_attrs ps : map attr_of (map statement_of ps) = map (fun p => lower (p_name p)) ps.
  Proof. rewrite map_map. apply map_ext. intros p. unfold statement_of. now destruct (p_optional p). Qed.
  Lemma statements_plain ps : existsb is_registry (map statement_of ps) = false.
  Proof. induction ps as [|p ps IH]; [reflexivity|]. cbn [map existsb]. rewrite IH. unfold statement_of. now destruct (p_optional p). Qed.
  Lemma plain_stored args body st : existsb is_registry body = false -> In st body -> stored args st = given args (attr_of st).
  Proof.
    intros H Hst. unfold stored. destruct (is_registry st) eqn:E; [|reflexivity].
    assert (X : existsb is_registry body = true) by (apply existsb_exists; eauto). congruence.
  Qed.

  Lemma defaults_required params (ps : list prop) pre (npre : list str) post (npost : list str) :
    map pa_name params = npre ++ map (fun p => lower (p_name p)) (order_by_optional ps) ++ npost ->
    map pa_default params = map (fun _ => false) npre ++ map p_optional (order_by_optional ps) ++ map (fun _ => true) npost ->
    pre = npre -> post = npost ->
    forall a, (exists q, In q params /\ pa_name q = a /\ pa_default q = false) <-> In a (pre ++ required_of ps).
  Proof.
    intros E1 E2 -> -> a.
    assert (P : map (fun q => (pa_name q, pa_default q)) params =
      map (fun n => (n, false)) npre ++ map (fun p => (lower (p_name p), p_optional p)) (order_by_optional ps) ++ map (fun n => (n, true)) npost).
    { assert (G : forall (l : list param) (a : list str) (b : list bool), map pa_name l = a -> map pa_default l = b -> map (fun q => (pa_name q, pa_default q)) l = combine a b).
      { intros l x y <- <-. induction l; [reflexivity|]. cbn [map combine]. now f_equal. }
      rewrite (G _ _ _ E1 E2). clear. induction npre as [|n npre IH]; [|cbn [map app combine]; now rewrite <- IH].
      cbn [map app]. generalize (order_by_optional ps) as l. intros l. induction l as [|p l IH]; [|cbn [map app combine]; now rewrite <- IH].
      cbn [map app]. induction npost as [|n npost IH]; [reflexivity|]. cbn [map combine]. now rewrite <- IH. }
    assert (Q : forall b, (exists q, In q params /\ pa_name q = a /\ pa_default q = b) <-> In (a, b) (map (fun q => (pa_name q, pa_default q)) params)).
    { intros b. rewrite in_map_iff. split; intros (q & H).
      - exists q. destruct H as (H1 & <- & <-). auto.
      - exists q. destruct H as (H1 & H2). injection H1 as H1 H3. auto. }
    rewrite Q, P, !in_app_iff, !in_map_iff. unfold required_of. rewrite in_map_iff. split.
    - intros [(n & E & H)|[(p & E & H)|(n & E & H)]]; [injection E as E; left; congruence| |discriminate].
      injection E as E E'. right. exists p. split; [exact E|]. apply filter_In. split; [now apply ordered_In|now rewrite E'].
    - intros [H|(p & E & H)]; [left; eauto|]. right. left. exists p. apply filter_In in H as (H & O). apply negb_true_iff in O.
      split; [now rewrite E, O|now apply ordered_In].
  Qed.

  Lemma attrs_keys args body : keys (map (fun st => (attr_of st, stored args st)) body) = map attr_of body.
  Proof. unfold keys. rewrite map_map. reflexivity. Qed.

  (** The constructors of classes and embeds. *)
  Lemma construct_plain m i params body pre ps args :
    map pa_name params = pre ++ map (fun p => lower (p_name p)) (order_by_optional ps) ->
    map pa_default params = map (fun _ => false) pre ++ map p_optional (order_by_optional ps) ->
    map attr_of body = pre ++ map (fun p => lower (p_name p)) (order_by_optional ps) -> existsb is_registry body = false ->
    NoDup (map pa_name params) -> NoDup (keys args) ->
    (call_with (pre ++ required_of ps) (optional_in ps) args ->
     exists attrs, construct V m (Definition_ i (Some (params, body))) args = Done attrs /\ built (pre ++ required_of ps) (optional_in ps) args attrs) /\
    (~ call_with (pre ++ required_of ps) (optional_in ps) args ->
     exists n, construct V m (Definition_ i (Some (params, body))) args = Failed (UnexpectedArgument n) \/
               construct V m (Definition_ i (Some (params, body))) args = Failed (MissingArgument n)).
  Proof.
    intros E1 E2 E3 R N NA.
    assert (REQ := defaults_required params ps pre pre [] [] ltac:(now rewrite app_nil_r) ltac:(now rewrite app_nil_r) eq_refl eq_refl).
    assert (ALL : forall a, In a (map pa_name params) <-> In a ((pre ++ required_of ps) ++ optional_in ps)).
    { intros a. rewrite E1, <- app_assoc, !in_app_iff, properties_split, in_app_iff. reflexivity. }
    assert (CW : call_with (pre ++ required_of ps) (optional_in ps) args <->
      incl (keys args) (map pa_name params) /\ (forall p, In p params -> pa_default p = false -> In (pa_name p) (keys args))).
    { split.
      - intros (_ & H1 & H2). split; [intros a Ha; apply ALL; now apply H2|]. intros p Hp D. apply H1. apply REQ. eauto.
      - intros (H1 & H2). split; [exact NA|]. split; [intros a Ha; apply REQ in Ha as (q & Hq & <- & D); now apply H2|].
        intros a Ha. apply ALL. now apply H1. }
    split.
    - intros C. apply CW in C as (H1 & H2). rewrite construct_ok; auto; [|congruence|rewrite R; discriminate].
      rewrite attributes; [|congruence|exact N]. eexists. split; [reflexivity|]. unfold built. rewrite attrs_keys, E3, <- E1.
      split; [exact N|]. split; [exact ALL|].
      assert (AT : forall a, In a (map pa_name params) -> In (a, given args a) (map (fun st => (attr_of st, stored args st)) body)).
      { intros a Ha. rewrite E1, <- E3 in Ha. apply in_map_iff in Ha as (st & <- & Hst). apply in_map_iff. exists st. split; [|exact Hst].
        f_equal. now apply (plain_stored args body). }
      split.
      + intros a v Hv. rewrite <- (given_In args a v NA Hv). apply AT. apply H1. apply in_map_iff. now exists (a, v).
      + intros a Ha Hn. rewrite <- (given_missing args a Hn). apply AT. apply ALL. apply in_or_app. now right.
    - intros C. apply construct_fails. intros X. apply C. now apply CW.
  Qed.

  (** The constructor of the graph. *)
  Lemma construct_graph m i params g args :
    let body := map statement_of (order_by_optional (g_props g)) ++ map (fun c => SetRegistry (lower (c_plural c))) (g_classes g) in
    map pa_name params = map (fun p => lower (p_name p)) (order_by_optional (g_props g)) ++ registries_of g ->
    map pa_default params = map p_optional (order_by_optional (g_props g)) ++ map (fun _ => true) (g_classes g) ->
    (g_classes g <> [] -> ~ In (s_ "collections") (map pa_name params) /\ In (s_ "collections") (mo_imports m)) ->
    NoDup (map pa_name params) -> NoDup (keys args) ->
    let required := required_of (g_props g) in let optional := optional_in (g_props g) in let registries := registries_of g in
    (call_with required (optional ++ registries) args ->
     exists attrs, construct V m (Definition_ i (Some (params, body))) args = Done attrs /\ built_graph required optional registries args attrs) /\
    (~ call_with required (optional ++ registries) args ->
     exists n, construct V m (Definition_ i (Some (params, body))) args = Failed (UnexpectedArgument n) \/
               construct V m (Definition_ i (Some (params, body))) args = Failed (MissingArgument n)).
  Proof.
    intros body E1 E2 HC N NA required optional registries.
    assert (REQ := defaults_required params (g_props g) [] [] registries registries E1
      ltac:(rewrite E2; unfold registries, registries_of; rewrite map_map; reflexivity) eq_refl eq_refl). cbn [app] in REQ.
    assert (E3 : map attr_of body = map pa_name params).
    { unfold body. rewrite map_app, statements_attrs, map_map, E1. reflexivity. }
    assert (ALL : forall a, In a (map pa_name params) <-> In a (required ++ optional ++ registries)).
    { intros a. rewrite E1, !in_app_iff, properties_split, in_app_iff. unfold required, optional, registries. tauto. }
    assert (CW : call_with required (optional ++ registries) args <->
      incl (keys args) (map pa_name params) /\ (forall p, In p params -> pa_default p = false -> In (pa_name p) (keys args))).
    { split.
      - intros (_ & H1 & H2). split; [intros a Ha; apply ALL; now apply H2|]. intros p Hp D. apply H1. apply REQ. eauto.
      - intros (H1 & H2). split; [exact NA|]. split; [intros a Ha; apply REQ in Ha as (q & Hq & <- & D); now apply H2|].
        intros a Ha. apply ALL. now apply H1. }
    split.
    - intros C. apply CW in C as (H1 & H2). rewrite construct_ok; auto.
      2:{ intros X. apply HC. intros Y. unfold body in X. rewrite Y in X. cbn [map] in X. rewrite app_nil_r, statements_plain in X. discriminate. }
      rewrite attributes by assumption. eexists. split; [reflexivity|]. unfold built_graph. rewrite attrs_keys, E3.
      split; [exact N|]. split; [exact ALL|].
      assert (DIS : forall a, In a (map (fun p => lower (p_name p)) (order_by_optional (g_props g))) -> ~ In a registries).
      { rewrite E1 in N. destruct (NoDup_app_parts _ _ N) as (_ & _ & D). intros a Ha Hb. now apply (D a). }
      assert (AR : forall a, In a registries -> In (a, match given args a with VNone => VEmptyRegistry | v => v end) (map (fun st => (attr_of st, stored args st)) body)).
      { intros a Ha. unfold registries, registries_of in Ha. apply in_map_iff in Ha as (c & <- & Hc). apply in_map_iff.
        exists (SetRegistry (lower (c_plural c))). split; [reflexivity|]. apply in_or_app. right. apply in_map_iff. eauto. }
      assert (AT : forall a, In a (map (fun p => lower (p_name p)) (order_by_optional (g_props g))) -> In (a, given args a) (map (fun st => (attr_of st, stored args st)) body)).
      { intros a Ha. apply in_map_iff in Ha as (p & <- & Hp). apply in_map_iff. exists (statement_of p).
        split; [|apply in_or_app; left; now apply in_map]. unfold statement_of, stored. now destruct (p_optional p). }
      assert (WH : forall a v, In (a, v) args -> In a (map (fun p => lower (p_name p)) (order_by_optional (g_props g))) \/ In a registries).
      { intros a v Hv. apply in_app_or. unfold registries. rewrite <- E1. apply H1. apply in_map_iff. now exists (a, v). }
      repeat split.
      + intros a v Hv Ha ->. specialize (AR a Ha). rewrite (given_In args a _ NA Hv) in AR. exact AR.
      + intros a v Hv Hn. destruct (WH a v Hv) as [Ha|Ha].
        * specialize (AT a Ha). rewrite (given_In args a _ NA Hv) in AT. exact AT.
        * specialize (AR a Ha). rewrite (given_In args a _ NA Hv) in AR. destruct v; [exfalso; auto|exact AR|exact AR].
      + intros a Ha Hn. assert (X : In a (map (fun p => lower (p_name p)) (order_by_optional (g_props g)))).
        { apply properties_split. apply in_or_app. now right. }
        specialize (AT a X). rewrite (given_missing args a Hn) in AT. exact AT.
      + intros a Ha Hn. specialize (AR a Ha). rewrite (given_missing args a Hn) in AR. exact AR.
    - intros C. apply construct_fails. intros X. apply C. now apply CW.
  Qed.
End Attributes.
