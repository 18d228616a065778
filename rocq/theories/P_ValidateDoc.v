(** Proofs about the validation of documents. *)
From Coq Require Import String List Arith NArith ZArith QArith Bool Lia Permutation Floats.SpecFloat.
From Verif Require Import Base M_Naming M_Schema M_Dec M_Strftime M_Validate S_Conform P_Naming S_Validate P_Validate
  P_ValidateType.
Import ListNotations.
Open Scope list_scope.
Local Open Scope nat_scope.

(** * Lists *)

Lemma concat_nil {A} (xss : list (list A)) : concat xss = [] <-> forall xs, In xs xss -> xs = [].
Proof.
  induction xss as [|xs xss IH]; cbn; [split; [contradiction | reflexivity]|]. split.
  - intros H. apply app_eq_nil in H. destruct H as [-> H]. intros ys [<- | Hy]; auto. now apply IH.
  - intros H. rewrite (H xs) by auto. apply IH. auto.
Qed.
Lemma mapM_Ok {A B} (f : A -> res B) l ys : mapM f l = Ok ys <-> Forall2 (fun x y => f x = Ok y) l ys.
Proof.
  revert ys. induction l as [|x l IH]; intros ys; cbn [mapM].
  - split; [intros [= <-]; constructor | intros H; inversion H; reflexivity].
  - split.
    + destruct (f x) as [y|] eqn:Ex; [|discriminate]. cbn [bind]. destruct (mapM f l) as [zs|] eqn:El; [|discriminate].
      intros [= <-]. constructor; auto. now apply IH.
    + intros H. inversion H as [|? y ? zs Hx Hl]; subst. rewrite Hx. cbn [bind]. apply IH in Hl. rewrite Hl. reflexivity.
Qed.
Lemma mapM_nil {A B} (f : A -> res (list B)) l :
  (exists yss, mapM f l = Ok yss /\ concat yss = []) <-> forall x, In x l -> f x = Ok [].
Proof.
  split.
  - intros (yss & H1 & H2) x Hx. apply mapM_Ok in H1. rewrite concat_nil in H2.
    induction H1 as [|a b l bs Hab H1 IH]; [contradiction|]. destruct Hx as [<- | Hx].
    + rewrite Hab. f_equal. apply H2. now left.
    + apply IH; auto. intros xs Hxs. apply H2. now right.
  - intros H. exists (map (fun _ => []) l). split.
    + apply mapM_Ok. induction l as [|x l IH]; cbn [map]; constructor; [apply H; now left | apply IH; intros; apply H; now right].
    + apply concat_nil. intros xs Hx. apply in_map_iff in Hx. destruct Hx as (? & <- & _). reflexivity.
Qed.
Lemma number_from_In {A} (l : list A) : forall k i x, In (i, x) (number_from k l) <-> k <= i /\ nth_error l (i - k) = Some x.
Proof.
  induction l as [|y l IH]; intros k i x; cbn [number_from In].
  - split; [contradiction|]. intros [_ H]. destruct (i - k); discriminate.
  - rewrite IH. split.
    + intros [[= <- <-] | [H1 H2]].
      * rewrite Nat.sub_diag. auto.
      * split; [lia|]. replace (i - k) with (S (i - S k)) by lia. exact H2.
    + intros [H1 H2]. destruct (Nat.eq_dec k i) as [<- | Hne].
      * rewrite Nat.sub_diag in H2. injection H2 as <-. now left.
      * right. split; [lia|]. replace (i - k) with (S (i - S k)) in H2 by lia. exact H2.
Qed.
Lemma enumerate_In {A} (l : list A) i x : In (i, x) (enumerate l) <-> nth_error l i = Some x.
Proof. unfold enumerate. rewrite number_from_In, Nat.sub_0_r. split; [tauto | intros; split; [lia|auto]]. Qed.
Lemma enumerate_forall {A} (l : list A) (P : A -> Prop) :
  (forall ix, In ix (enumerate l) -> P (snd ix)) <-> (forall x, In x l -> P x).
Proof.
  split.
  - intros H x Hx. apply In_nth_error in Hx. destruct Hx as (i & Hi). apply enumerate_In in Hi. exact (H _ Hi).
  - intros H (i, x) Hi. apply enumerate_In, nth_error_In in Hi. exact (H _ Hi).
Qed.

Lemma member_keys l k P : member l k P -> In (s_ k) (keys l).
Proof. intros (v & Hv & _). apply in_map_iff. exists (s_ k, v). auto. Qed.
Lemma keys_value {A} k (l : list (str * A)) : In k (keys l) -> exists v, In (k, v) l.
Proof. intros H. apply in_map_iff in H. destruct H as ((k', v) & <- & H). eauto. Qed.
Lemma member_iff l k (P : jval -> Prop) : NoDup (keys l) -> member l k P <-> maybe l k P /\ In (s_ k) (keys l).
Proof.
  intros Hn. split.
  - intros H. split; [|eapply member_keys; eauto]. destruct H as (v & Hv & HP). intros w Hw.
    now rewrite (unique l Hn _ _ _ Hw Hv).
  - intros [H1 H2]. apply keys_value in H2. destruct H2 as (v & Hv). exists v. auto.
Qed.

Lemma NoDup_app_left {A} (a b : list A) : NoDup (a ++ b) -> NoDup a.
Proof.
  induction a as [|x a IH]; cbn; intros H; [constructor|]. inversion H as [|? ? H1 H2]; subst. constructor; auto.
  intros Hx. apply H1, in_app_iff. auto.
Qed.

(** * The JSON schema *)

Lemma jvalid_closed ps req l ks : NoDup (keys l) -> keys ps = map s_ ks ->
  jvalid (SObject ps req None) (JObj l) = true <->
  Forall (valid_member l) ps /\ Forall (fun k => In k (keys l)) req /\ only l ks.
Proof.
  intros Hn Ek. rewrite jvalid_object by exact Hn. rewrite Ek. apply and_iff_compat_l, and_iff_compat_l.
  unfold only. split.
  - intros H k Hk. apply keys_value in Hk. destruct Hk as (v & Hv). destruct (H _ _ Hv) as [|(? & [=] & _)]; auto.
  - intros H k v Hv. left. apply H. apply in_map_iff. exists (k, v). auto.
Qed.

Lemma j_text p (P : str -> Prop) v : (forall s, p s = true <-> P s) -> jvalid (SString p) v = true <-> a_text P v.
Proof.
  intros HP. unfold a_text. destruct v as [| | | |s| |];
    try (split; [discriminate | intros (? & E & _); discriminate]). cbn [jvalid]. rewrite HP. split; [eauto|].
  intros (? & [= <-] & H). exact H.
Qed.
Lemma j_enum vs v : jvalid (SEnum (map s_ vs)) v = true <-> a_text (one_of vs) v.
Proof.
  unfold a_text. destruct v as [| | | |s| |];
    try (split; [discriminate | intros (? & E & _); discriminate]). cbn [jvalid]. rewrite mem_In. split; [eauto|].
  intros (? & [= <-] & H). exact H.
Qed.

Lemma obj_of (s : jschema) v : (exists ps req add, s = SObject ps req add) -> jvalid s v = true -> exists l, v = JObj l.
Proof. intros (ps & req & add & ->). destruct v; try discriminate. eauto. Qed.

Ltac members_tac :=
  rewrite ?valid_cons; rewrite ?Forall_cons_iff.

Lemma j_cpp v : json_wf v -> jvalid CPP v = true <-> cpp_ok v.
Proof.
  intros Hw. unfold cpp_ok. split.
  - intros H. destruct (obj_of _ _ ltac:(unfold CPP; eauto) H) as (l & ->). exists l. split; [reflexivity|].
    apply wf_obj in Hw. destruct Hw as [Hn Hw].
    apply (jvalid_closed _ _ _ ["namespace"; "path_as"; "optional_as"; "datetime_library"; "indention"]%string) in H; auto.
    rewrite !valid_cons, !Forall_cons_iff in H.
    rewrite !member_iff by exact Hn.
    destruct H as ((A & B & C & D & E & _) & (F & G & I & J & _) & K).
    rewrite (maybe_iff _ _ _ _ (fun v => j_text _ _ v namespace_ok)) in A.
    rewrite (maybe_iff _ _ _ _ (j_enum ["std::filesystem::path"; "boost::filesystem::path"]%string)) in B.
    rewrite (maybe_iff _ _ _ _ (j_enum ["boost::optional"; "std::optional"; "std::experimental::optional"]%string)) in C.
    rewrite (maybe_iff _ _ _ _ (j_enum ["ctime"; "date.h"]%string)) in D.
    rewrite (maybe_iff _ _ _ _ (fun v => j_text _ _ v indention_ok)) in E.
    repeat split; assumption.
  - intros (l & -> & K & A & B & C & D & E). apply wf_obj in Hw. destruct Hw as [Hn Hw].
    rewrite !member_iff in * by exact Hn.
    apply (jvalid_closed _ _ _ ["namespace"; "path_as"; "optional_as"; "datetime_library"; "indention"]%string); auto.
    rewrite !valid_cons, !Forall_cons_iff.
    rewrite <- (maybe_iff _ _ _ _ (fun v => j_text _ _ v namespace_ok)) in A.
    rewrite <- (maybe_iff _ _ _ _ (j_enum ["std::filesystem::path"; "boost::filesystem::path"]%string)) in B.
    rewrite <- (maybe_iff _ _ _ _ (j_enum ["boost::optional"; "std::optional"; "std::experimental::optional"]%string)) in C.
    rewrite <- (maybe_iff _ _ _ _ (j_enum ["ctime"; "date.h"]%string)) in D.
    rewrite <- (maybe_iff _ _ _ _ (fun v => j_text _ _ v indention_ok)) in E.
    repeat split; solve [assumption | constructor | apply A | apply B | apply C | apply D].
Qed.
Lemma j_go v : json_wf v -> jvalid GO v = true <-> go_ok v.
Proof.
  intros Hw. unfold go_ok.
  assert (Hp : forall s, package_re s = true <-> starts letter s) by (intros s; apply starts_ok, alpha_letter).
  split.
  - intros H. destruct (obj_of _ _ ltac:(unfold GO; eauto) H) as (l & ->). exists l. split; [reflexivity|].
    apply wf_obj in Hw. destruct Hw as [Hn Hw].
    apply (jvalid_closed _ _ _ ["package"]%string) in H; auto.
    rewrite !valid_cons, !Forall_cons_iff in H. rewrite !member_iff by exact Hn.
    destruct H as ((A & _) & (F & _) & K).
    rewrite (maybe_iff _ _ _ _ (fun v => j_text _ _ v Hp)) in A. repeat split; assumption.
  - intros (l & -> & K & A). apply wf_obj in Hw. destruct Hw as [Hn Hw].
    rewrite !member_iff in * by exact Hn.
    apply (jvalid_closed _ _ _ ["package"]%string); auto.
    rewrite !valid_cons, !Forall_cons_iff.
    rewrite <- (maybe_iff _ _ _ _ (fun v => j_text _ _ v Hp)) in A.
    repeat split; solve [assumption | constructor | apply A].
Qed.
Lemma j_py v : json_wf v -> jvalid PY v = true <-> py_ok v.
Proof.
  intros Hw. unfold py_ok. split.
  - intros H. destruct (obj_of _ _ ltac:(unfold PY; eauto) H) as (l & ->). exists l. split; [reflexivity|].
    apply wf_obj in Hw. destruct Hw as [Hn Hw].
    apply (jvalid_closed _ _ _ ["module_name"; "path_as"; "timezone_as"; "indention"]%string) in H; auto.
    rewrite !valid_cons, !Forall_cons_iff in H.
    rewrite !member_iff by exact Hn.
    destruct H as ((A & B & C & E & _) & (F & G & I & _) & K).
    rewrite (maybe_iff _ _ _ _ (fun v => j_text _ _ v module_ok)) in A.
    rewrite (maybe_iff _ _ _ _ (j_enum ["str"; "pathlib.Path"]%string)) in B.
    rewrite (maybe_iff _ _ _ _ (j_enum ["str"; "pytz.timezone"]%string)) in C.
    rewrite (maybe_iff _ _ _ _ (fun v => j_text _ _ v indention_ok)) in E.
    repeat split; assumption.
  - intros (l & -> & K & A & B & C & E). apply wf_obj in Hw. destruct Hw as [Hn Hw].
    rewrite !member_iff in * by exact Hn.
    apply (jvalid_closed _ _ _ ["module_name"; "path_as"; "timezone_as"; "indention"]%string); auto.
    rewrite !valid_cons, !Forall_cons_iff.
    rewrite <- (maybe_iff _ _ _ _ (fun v => j_text _ _ v module_ok)) in A.
    rewrite <- (maybe_iff _ _ _ _ (j_enum ["str"; "pathlib.Path"]%string)) in B.
    rewrite <- (maybe_iff _ _ _ _ (j_enum ["str"; "pytz.timezone"]%string)) in C.
    rewrite <- (maybe_iff _ _ _ _ (fun v => j_text _ _ v indention_ok)) in E.
    repeat split; solve [assumption | constructor | apply A | apply B | apply C].
Qed.

(** * Properties *)

Definition property_shape (v : jval) : Prop :=
  exists l, v = JObj l /\ member l "description" (a_text any) /\
    member l "type" (a_text (fun n => exists c, In c n /\ letter c)) /\
    maybe l "json" (a_text any) /\ maybe l "optional" a_boolean.

Lemma j_property v : json_wf v -> jvalid PROPERTY v = true <-> property_shape v.
Proof.
  intros Hw. unfold property_shape. split.
  - intros H. destruct (obj_of _ _ ltac:(unfold PROPERTY; eauto) H) as (l & ->). exists l. split; [reflexivity|].
    apply wf_obj in Hw. destruct Hw as [Hn Hw].
    apply jvalid_object in H; auto. rewrite !valid_cons, !Forall_cons_iff in H.
    rewrite !member_iff by exact Hn. destruct H as ((A & B & C & D & _) & (F & G & _) & K).
    rewrite (maybe_iff _ _ _ _ j_string) in A. rewrite (maybe_iff _ _ _ _ (fun v => j_text _ _ v type_re_ok)) in B.
    rewrite (maybe_iff _ _ _ _ j_string) in C. rewrite (maybe_iff _ _ _ _ j_boolean) in D.
    repeat split; assumption.
  - intros (l & -> & A & B & C & D). apply wf_obj in Hw. destruct Hw as [Hn Hw].
    rewrite !member_iff in * by exact Hn. apply jvalid_object; auto. rewrite !valid_cons, !Forall_cons_iff.
    rewrite <- (maybe_iff _ _ _ _ j_string) in A. rewrite <- (maybe_iff _ _ _ _ (fun v => j_text _ _ v type_re_ok)) in B.
    rewrite <- (maybe_iff _ _ _ _ j_string) in C. rewrite <- (maybe_iff _ _ _ _ j_boolean) in D.
    repeat split; try solve [assumption | constructor | apply A | apply B].
    intros k v Hv. right. exists SAny. auto.
Qed.

Lemma key_order_iff l ref : In (s_ "description") (keys l) ->
  validate_key_order l ref = Ok None <-> exists t d r, l = (s_ "type", t) :: (s_ "description", d) :: r.
Proof.
  intros Hd. unfold validate_key_order. apply mem_In in Hd.
  rewrite Hd. clear Hd. destruct l as [|(k0, t) [|(k1, d) r]]; cbn [keys map fst].
  - split; [discriminate|]. intros (t & d & r & E). discriminate.
  - split; [destruct (negb _); discriminate|]. intros (t' & d & r & E). discriminate.
  - destruct (str_eqb k0 (s_ "type")) eqn:E0; cbn [negb].
    + apply str_eqb_eq in E0. subst k0. destruct (str_eqb k1 (s_ "description")) eqn:E1.
      * apply str_eqb_eq in E1. subst k1. split; eauto.
      * split; [discriminate|]. intros (t' & d' & r' & [= -> -> -> ->]). rewrite str_eqb_refl in E1. discriminate.
    + split; [discriminate|]. intros (t' & d' & r' & [= -> -> -> -> ->]). rewrite str_eqb_refl in E0. discriminate.
Qed.

Section Documents.
  Variables (re_ok : str -> bool) (ordered : bool).

  Section Names.
    Variable names : list str.
    Hypothesis names_ok : forall n, In n names -> ~ In n NONCOMPOSITE.
    Let types := NONCOMPOSITE ++ names.

    Lemma type_ok_type top l : type_ok re_ok names top (JObj l) -> exists n, In (s_ "type", JStr n) l.
    Proof. intros H. inversion H; unfold of_type in *; eauto. Qed.

    Lemma property_iff v ref : json_wf v ->
      (jvalid PROPERTY v = true /\ validate_type re_ok ordered true types ref v = Ok None) <->
      property_ok re_ok ordered names v.
    Proof.
      intros Hw. unfold types. rewrite (j_property v Hw), (validate_type_ok re_ok ordered names names_ok v true ref Hw).
      unfold property_shape, property_ok, order_ok. cbn [andb]. split.
      - intros ((l & -> & A & B & C & D) & E & F). apply wf_obj in Hw. destruct Hw as [Hn Hw].
        exists l. repeat split; auto.
        + intros Ho. destruct (E Ho) as (l' & r & [= <-] & H). apply key_order_iff in H; auto. eapply member_keys; eauto.
        + intros n Hin. destruct B as (w & Hw' & s & -> & Hs). assert (Es := unique l Hn _ _ _ Hin Hw'). injection Es as ->. exact Hs.
      - intros (l & -> & A & B & C & D & E & F). apply wf_obj in Hw. destruct Hw as [Hn Hw].
        split; [|split; [|exact F]].
        + exists l. repeat split; auto. destruct (type_ok_type _ _ F) as (n & Hin). exists (JStr n). split; auto. exists n. auto.
        + intros Ho. exists l, ref. split; [reflexivity|]. apply key_order_iff; auto. eapply member_keys; eauto.
    Qed.

    Lemma j_properties v : json_wf v ->
      jvalid PROPERTIES v = true <-> exists l, v = JObj l /\ forall k p, In (k, p) l -> jvalid PROPERTY p = true.
    Proof.
      intros Hw. split.
      - intros H. destruct (obj_of _ _ ltac:(unfold PROPERTIES; eauto) H) as (l & ->). exists l. split; [reflexivity|].
        apply wf_obj in Hw. destruct Hw as [Hn Hw]. apply jvalid_object in H; auto. destruct H as (_ & _ & H).
        intros k p Hp. destruct (H _ _ Hp) as [[] | (a & [= <-] & Ha)]. exact Ha.
      - intros (l & -> & H). apply wf_obj in Hw. destruct Hw as [Hn Hw]. apply jvalid_object; auto. repeat split; auto.
        intros k p Hp. right. eexists. split; [reflexivity|]. eauto.
    Qed.

    Lemma properties_iff l ref reserved : json_wf (JObj l) ->
      ((maybe l "properties" (fun v => jvalid PROPERTIES v = true) /\
        validate_properties re_ok ordered types ref l = Ok []) /\
       forall ps, In (s_ "properties", JObj ps) l -> forall k, In k (map s_ reserved) -> ~ In k (keys ps)) <->
      maybe l "properties" (properties_ok re_ok ordered names reserved).
    Proof.
      intros Hw. apply wf_obj in Hw. destruct Hw as [Hn Hw]. rewrite !(maybe_lookup l Hn). unfold validate_properties.
      destruct (lookup (s_ "properties") l) as [v|] eqn:El.
      2:{ split; auto. intros _. repeat split; auto. intros ps Hp. apply (In_lookup _ _ _ Hn) in Hp. congruence. }
      assert (Hv := lookup_In _ _ _ El). assert (Hwv := Hw _ _ Hv). rewrite (j_properties v Hwv). unfold properties_ok.
      split.
      - intros [[(ps & -> & H1) H2] H3]. exists ps. split; [reflexivity|]. cbn [fields bind] in H2.
        apply wf_obj in Hwv. destruct Hwv as [Hnp Hwp].
        match type of H2 with bind ?m _ = _ => destruct m as [ess|] eqn:Em end; [|discriminate]. cbn [bind] in H2. injection H2 as H2.
        assert (H4 := proj1 (mapM_nil _ ps) (ex_intro _ ess (conj Em H2))).
        intros k p Hp. specialize (H4 _ Hp). cbn beta iota in H4.
        destruct (validate_type re_ok ordered true types (ref ++ s_ "/properties/" ++ k) p) as [o|] eqn:Eo; [|discriminate].
        cbn [bind] in H4. injection H4 as H4. apply app_eq_nil in H4. destruct H4 as [H4 H5]. destruct o; [discriminate|].
        split; [|split].
        + apply property_name_ok. destruct (property_re k); [reflexivity | discriminate].
        + intros Hk. apply (H3 _ Hv _ Hk). apply in_map_iff. exists (k, p). auto.
        + eapply property_iff; eauto.
      - intros (ps & -> & H). apply wf_obj in Hwv. destruct Hwv as [Hnp Hwp]. split; [split|].
        + exists ps. split; [reflexivity|]. intros k p Hp. destruct (H _ _ Hp) as (_ & _ & H').
          apply (property_iff p ref) in H'; [tauto | eauto].
        + cbn [fields bind].
          match goal with |- bind (mapM ?f ps) _ = _ => assert (Hm : forall x, In x ps -> f x = Ok []) end.
          { intros (k, p) Hp. destruct (H _ _ Hp) as (H1 & _ & H3). apply property_name_ok in H1. rewrite H1.
            apply (property_iff p (ref ++ s_ "/properties/" ++ k)) in H3; [|eauto]. destruct H3 as [_ H3]. rewrite H3. reflexivity. }
          apply mapM_nil in Hm. destruct Hm as (yss & E1 & E2). rewrite E1. cbn [bind]. now rewrite E2.
        + intros ps' Hps k Hk. assert (E := unique l Hn _ _ _ Hv Hps). injection E as <-. intros Hin.
          apply keys_value in Hin. destruct Hin as (p & Hp). destruct (H _ _ Hp) as (_ & H2 & _). auto.
    Qed.

    (** * Classes and embeds *)

    Definition class_shape (l : list (str * jval)) : Prop :=
      only l ["name"; "description"; "plural"; "id_pattern"; "properties"]%string /\
      member l "name" (a_text (lax (identifier capital))) /\
      member l "description" (a_text (lax description_shape)) /\
      maybe l "plural" (a_text (lax (identifier capital))) /\
      maybe l "id_pattern" (a_text any) /\
      maybe l "properties" (fun v => jvalid PROPERTIES v = true).
    Lemma j_class v : json_wf v -> jvalid CLASS v = true <-> exists l, v = JObj l /\ class_shape l.
    Proof.
      intros Hw. unfold class_shape. split.
      - intros H. destruct (obj_of _ _ ltac:(unfold CLASS; eauto) H) as (l & ->). exists l. split; [reflexivity|].
        apply wf_obj in Hw. destruct Hw as [Hn Hw].
        apply (jvalid_closed _ _ _ ["name"; "description"; "plural"; "id_pattern"; "properties"]%string) in H; auto.
        rewrite !valid_cons, !Forall_cons_iff in H. rewrite !member_iff by exact Hn.
        destruct H as ((A & B & C & D & E & _) & (F & G & _) & K).
        rewrite (maybe_iff _ _ _ _ (fun v => j_text _ _ v class_name_ok)) in A.
        rewrite (maybe_iff _ _ _ _ (fun v => j_text _ _ v description_ok)) in B.
        rewrite (maybe_iff _ _ _ _ (fun v => j_text _ _ v class_name_ok)) in C.
        rewrite (maybe_iff _ _ _ _ j_string) in D. repeat split; assumption.
      - intros (l & -> & K & A & B & C & D & E). apply wf_obj in Hw. destruct Hw as [Hn Hw].
        rewrite !member_iff in * by exact Hn.
        apply (jvalid_closed _ _ _ ["name"; "description"; "plural"; "id_pattern"; "properties"]%string); auto.
        rewrite !valid_cons, !Forall_cons_iff.
        rewrite <- (maybe_iff _ _ _ _ (fun v => j_text _ _ v class_name_ok)) in A.
        rewrite <- (maybe_iff _ _ _ _ (fun v => j_text _ _ v description_ok)) in B.
        rewrite <- (maybe_iff _ _ _ _ (fun v => j_text _ _ v class_name_ok)) in C.
        rewrite <- (maybe_iff _ _ _ _ j_string) in D.
        repeat split; solve [assumption | constructor | apply A | apply B].
    Qed.

    Definition embed_shape (l : list (str * jval)) : Prop :=
      only l ["name"; "description"; "properties"]%string /\
      member l "name" (a_text (starts capital)) /\
      member l "description" (a_text (lax description_shape)) /\
      maybe l "properties" (fun v => jvalid PROPERTIES v = true).
    Lemma j_embed v : json_wf v -> jvalid EMBED v = true <-> exists l, v = JObj l /\ embed_shape l.
    Proof.
      intros Hw. unfold embed_shape. split.
      - intros H. destruct (obj_of _ _ ltac:(unfold EMBED; eauto) H) as (l & ->). exists l. split; [reflexivity|].
        apply wf_obj in Hw. destruct Hw as [Hn Hw].
        apply (jvalid_closed _ _ _ ["name"; "description"; "properties"]%string) in H; auto.
        rewrite !valid_cons, !Forall_cons_iff in H. rewrite !member_iff by exact Hn.
        destruct H as ((A & B & C & _) & (F & G & _) & K).
        rewrite (maybe_iff _ _ _ _ (fun v => j_text _ _ v initial_ok)) in A.
        rewrite (maybe_iff _ _ _ _ (fun v => j_text _ _ v description_ok)) in B. repeat split; assumption.
      - intros (l & -> & K & A & B & C). apply wf_obj in Hw. destruct Hw as [Hn Hw].
        rewrite !member_iff in * by exact Hn.
        apply (jvalid_closed _ _ _ ["name"; "description"; "properties"]%string); auto.
        rewrite !valid_cons, !Forall_cons_iff.
        rewrite <- (maybe_iff _ _ _ _ (fun v => j_text _ _ v initial_ok)) in A.
        rewrite <- (maybe_iff _ _ _ _ (fun v => j_text _ _ v description_ok)) in B.
        repeat split; solve [assumption | constructor | apply A | apply B].
    Qed.

    Lemma validate_class_iff l ref : json_wf (JObj l) ->
      maybe l "properties" (fun v => jvalid PROPERTIES v = true) -> maybe l "id_pattern" (a_text any) ->
      validate_class re_ok ref l = Ok [] <->
      maybe l "id_pattern" (a_text (fun p => re_ok p = true)) /\
      forall ps, In (s_ "properties", JObj ps) l -> forall k, In k (map s_ ["id"]%string) -> ~ In k (keys ps).
    Proof.
      intros Hw Hp Hi. apply wf_obj in Hw. destruct Hw as [Hn Hw]. rewrite (maybe_lookup l Hn) in *. unfold validate_class.
      set (errs := match lookup (s_ "id_pattern") l with Some (JStr p) => _ | Some _ => _ | None => _ end).
      assert (He : errs = [] <-> match lookup (s_ "id_pattern") l with Some v => a_text (fun p => re_ok p = true) v | None => True end).
      { subst errs. destruct (lookup (s_ "id_pattern") l) as [v|]; [|tauto]. destruct Hi as (s & -> & _).
        unfold a_text. destruct (re_ok s) eqn:E; split; eauto; try discriminate. intros (? & [= <-] & H). congruence. }
      rewrite <- He. destruct (lookup (s_ "properties") l) as [v|] eqn:El.
      - assert (Hv := lookup_In _ _ _ El). assert (Hwv := Hw _ _ Hv). apply j_properties in Hp; auto. destruct Hp as (ps & -> & _).
        cbn [fields bind].
        assert (Hk : (forall ps', In (s_ "properties", JObj ps') l -> forall k, In k (map s_ ["id"]%string) -> ~ In k (keys ps')) <->
                     mem (s_ "id") (keys ps) = false).
        { rewrite mem_not_In. split.
          - intros H. apply (H _ Hv). now left.
          - intros H ps' Hps k [<- | []]. assert (E := unique l Hn _ _ _ Hv Hps). injection E as <-. exact H. }
        rewrite Hk. destruct (mem (s_ "id") (keys ps)).
        + split; [|intros [_ E]; discriminate]. intros [= E]. apply app_eq_nil in E. destruct E; discriminate.
        + rewrite app_nil_r. split; [intros [= ->]; auto | intros [-> _]; reflexivity].
      - split.
        + intros [= ->]. split; auto. intros ps Hps. apply (In_lookup _ _ _ Hn) in Hps. congruence.
        + intros [-> _]. reflexivity.
    Qed.

    Lemma class_iff v ref ref' : json_wf v ->
      (jvalid CLASS v = true /\ (do fs <- fields v; validate_class re_ok ref fs) = Ok [] /\
       (do fs <- fields v; validate_properties re_ok ordered types ref' fs) = Ok []) <->
      class_ok re_ok ordered names v.
    Proof.
      intros Hw. unfold class_ok. split.
      - intros (H1 & H2 & H3). apply j_class in H1; auto. destruct H1 as (l & -> & A & B & C & D & E & F).
        cbn [fields bind] in *. apply validate_class_iff in H2; auto. destruct H2 as [H2 H4].
        exists l. repeat split; auto. eapply properties_iff; eauto.
      - intros (l & -> & A & B & C & D & E & F).
        apply (properties_iff l ref') in F; auto. destruct F as [[F1 F2] F3].
        assert (Hi : maybe l "id_pattern" (a_text any)).
        { intros p Hp. destruct (E p Hp) as (s & -> & _). exists s. split; [reflexivity | exact I]. }
        split; [|split].
        + apply j_class; auto. exists l. split; [reflexivity|]. repeat split; auto.
        + cbn [fields bind]. apply validate_class_iff; auto.
        + exact F2.
    Qed.
    Lemma embed_iff v ref : json_wf v ->
      (jvalid EMBED v = true /\ (do fs <- fields v; validate_properties re_ok ordered types ref fs) = Ok []) <->
      embed_ok re_ok ordered names v.
    Proof.
      intros Hw. unfold embed_ok. split.
      - intros (H1 & H3). apply j_embed in H1; auto. destruct H1 as (l & -> & A & B & C & D).
        cbn [fields bind] in *. exists l. repeat split; auto. apply (properties_iff l ref []); auto.
      - intros (l & -> & A & B & C & D). apply (properties_iff l ref) in D; auto. destruct D as [[F1 F2] F3].
        split; [|exact F2]. apply j_embed; auto. exists l. split; [reflexivity|]. repeat split; auto.
    Qed.
  End Names.

  (** * Names *)

  Lemma name_errors_iff objs ref kind : forall names k, NoDup names -> (forall v, In v objs -> json_wf v) ->
    forall errs names',
    fold_left (fun (acc : res (list str * list serr)) (ix : nat * jval) =>
                 do st <- acc;
                 do l <- fields (snd ix);
                 do n <- M_Validate.get (s_ "name") l;
                 do name <- text n;
                 let (names, errs) := st in
                 Ok (names ++ [name],
                     errs ++ (if mem name names
                              then [SErr (nth_ref ref kind (fst ix) ++ s_ "/name") (EDuplicateName name)] else [])))
              (number_from k objs) (Ok (names, errs)) = Ok (names', []) <->
    errs = [] /\ exists ns, Forall2 name_of objs ns /\ names' = names ++ ns /\ NoDup (names ++ ns).
  Proof.
    set (step := fun (acc : res (list str * list serr)) (ix : nat * jval) => _).
    assert (Hraise : forall l e, fold_left step l (Raise e) = Raise e).
    { induction l as [|ix l IH]; intros e; [reflexivity|]. cbn [fold_left]. apply IH. }
    induction objs as [|v objs IH]; intros names k Hn Hw errs names'; cbn [number_from fold_left].
    - split.
      + intros [= <- ->]. split; auto. exists []. rewrite app_nil_r. auto.
      + intros (-> & ns & H & -> & _). inversion H. now rewrite app_nil_r.
    - assert (Hstep : forall n, name_of v n ->
        step (Ok (names, errs)) (k, v) = Ok (names ++ [n], errs ++ if mem n names then [SErr (nth_ref ref kind k ++ s_ "/name") (EDuplicateName n)] else [])).
      { intros n (l & -> & Hl). assert (Hwv := Hw _ (or_introl eq_refl)). apply wf_obj in Hwv. destruct Hwv as [Hnl _].
        apply (In_lookup _ _ _ Hnl) in Hl. subst step. cbn [fst snd bind fields]. unfold M_Validate.get. rewrite Hl. reflexivity. }
      assert (Hnot : (forall n, ~ name_of v n) -> exists e, step (Ok (names, errs)) (k, v) = Raise e).
      { intros H. subst step. cbn [fst snd bind]. destruct v as [| | | | | |l]; try (eexists; reflexivity). cbn [fields bind].
        unfold M_Validate.get. destruct (lookup (s_ "name") l) as [n|] eqn:E; [|eexists; reflexivity].
        cbn [bind]. destruct n as [| | | |n| |]; try (eexists; reflexivity). exfalso. apply (H n).
        exists l. split; auto. now apply lookup_In. }
      assert (Hdec : (exists n, name_of v n) \/ (forall n, ~ name_of v n)).
      { destruct v as [| | | | | |l]; try (right; intros n (? & E & _); discriminate).
        assert (Hwv := Hw _ (or_introl eq_refl)). apply wf_obj in Hwv. destruct Hwv as [Hnl _].
        destruct (lookup (s_ "name") l) as [[| | | |n| |]|] eqn:E;
          try (right; intros n' (? & [= <-] & H); apply (In_lookup _ _ _ Hnl) in H; congruence).
        left. exists n, l. split; auto. now apply lookup_In. }
      assert (Huniq : forall n n', name_of v n -> name_of v n' -> n = n').
      { intros n n' (l & -> & H1) (l' & [= <-] & H2). assert (Hwv := Hw _ (or_introl eq_refl)). apply wf_obj in Hwv.
        destruct Hwv as [Hnl _]. assert (E := unique l Hnl _ _ _ H1 H2). congruence. }
      destruct Hdec as [(n & Hnm) | Hno].
      + rewrite (Hstep n Hnm). destruct (mem n names) eqn:Em.
        * split.
          -- intros H. exfalso. apply mem_In in Em.
             assert (Herrs : forall l nms es nms' es', fold_left step l (Ok (nms, es)) = Ok (nms', es') -> es <> [] -> es' <> []).
             { clear. subst step. induction l as [|(i, w) l IH]; intros nms es nms' es'; cbn [fold_left].
               - intros [= <- <-]. auto.
               - cbn [fst snd bind]. destruct (fields w); cbn [bind].
                 2:{ intros H. exfalso. revert H. clear. induction l; cbn; [discriminate | auto]. }
                 destruct (M_Validate.get (s_ "name") a); cbn [bind].
                 2:{ intros H. exfalso. revert H. clear. induction l; cbn; [discriminate | auto]. }
                 destruct (text a0); cbn [bind].
                 2:{ intros H. exfalso. revert H. clear. induction l; cbn; [discriminate | auto]. }
                 intros H Hes. eapply IH; [exact H|]. destruct es; [congruence | discriminate]. }
             refine (Herrs _ _ _ _ _ H _ eq_refl). destruct errs; discriminate.
          -- intros (_ & ns & H & _ & Hnd). exfalso. inversion H as [|? n' ? ns' Hx Hl]; subst.
             rewrite (Huniq _ _ Hx Hnm) in *. apply mem_In in Em. apply NoDup_remove_2 in Hnd. apply Hnd, in_app_iff. auto.
        * rewrite app_nil_r. apply mem_not_In in Em.
          assert (Hn' : NoDup (names ++ [n])).
          { apply NoDup_rev in Hn. rewrite <- (rev_involutive (names ++ [n])), rev_app_distr. apply NoDup_rev. cbn.
            constructor; auto. now rewrite <- in_rev. }
          rewrite (IH (names ++ [n]) (S k) Hn') by (intros w Hin; apply Hw; now right). split.
          -- intros (-> & ns & H1 & -> & H2). split; auto. exists (n :: ns). rewrite <- app_assoc in *. cbn [app] in *.
             repeat split; auto.
          -- intros (-> & ns & H1 & -> & H2). split; auto. inversion H1 as [|? n' ? ns' Hx Hl]; subst.
             rewrite (Huniq _ _ Hx Hnm) in *. exists ns'. rewrite <- !app_assoc. auto.
      + destruct (Hnot Hno) as (e & ->). rewrite Hraise. split; [discriminate|]. intros (_ & ns & H & _).
        inversion H as [|? n' ? ns' Hx Hl]; subst. exfalso. eapply Hno; eauto.
  Qed.

  Lemma elements_iff l k xs : NoDup (keys l) ->
    elements (s_ k) l = Ok xs <-> list_under l k xs.
  Proof.
    intros Hn. unfold elements, list_under. rewrite no_member_lookup. rewrite <- (lookup_iff _ _ _ Hn).
    destruct (lookup (s_ k) l) as [v|]; [|split; [intros [= <-]; auto | intros [[=] | [_ ->]]; reflexivity]].
    split.
    - destruct v; try discriminate. intros [= ->]. auto.
    - intros [[= ->] | [[=] _]]. reflexivity.
  Qed.

  Lemma elements_wf l k xs : json_wf (JObj l) -> list_under l k xs -> forall v, In v xs -> json_wf v.
  Proof.
    intros Hw. apply wf_obj in Hw. destruct Hw as [Hn Hw]. intros [H | [_ ->]] v Hv; [|contradiction].
    apply Hw in H. inversion H. auto.
  Qed.

  Lemma validate_names_iff l ref names : json_wf (JObj l) ->
    validate_names l ref = Ok (names, []) <->
    exists n classes embeds cns ens, In (s_ "name", JStr n) l /\ list_under l "classes" classes /\
      list_under l "embeds" embeds /\ Forall2 name_of classes cns /\ Forall2 name_of embeds ens /\
      names = n :: cns ++ ens /\ NoDup names.
  Proof.
    intros Hwl. assert (Hw := Hwl). apply wf_obj in Hw. destruct Hw as [Hn Hw]. unfold validate_names, name_errors, enumerate. split.
    - intros H. unfold M_Validate.get in H at 1. destruct (lookup (s_ "name") l) as [v|] eqn:En; [|discriminate]. cbn [bind] in H.
      destruct v as [| | | |n| |]; try discriminate. cbn [text bind] in H.
      destruct (elements (s_ "classes") l) as [cs|] eqn:Ec; [|discriminate]. cbn [bind] in H.
      match type of H with bind ?m _ = _ => destruct m as [(nm1, er1)|] eqn:E1 end; [|discriminate]. cbn [bind fst snd] in H.
      destruct (elements (s_ "embeds") l) as [es|] eqn:Ee; [|discriminate]. cbn [bind] in H.
      match type of H with bind ?m _ = _ => destruct m as [(nm2, er2)|] eqn:E2 end; [|discriminate]. cbn [bind fst snd] in H.
      injection H as <- H. apply app_eq_nil in H. destruct H as [-> ->].
      apply elements_iff in Ec, Ee; auto.
      apply name_errors_iff in E1; [|repeat constructor; intros [] | eapply elements_wf; eauto].
      destruct E1 as (_ & cns & F1 & -> & N1).
      apply name_errors_iff in E2; [|exact N1 | eapply elements_wf; eauto].
      destruct E2 as (_ & ens & F2 & -> & N2).
      exists n, cs, es, cns, ens. apply lookup_In in En. repeat split; auto.
    - intros (n & cs & es & cns & ens & H1 & H2 & H3 & H4 & H5 & -> & H6).
      unfold M_Validate.get at 1. apply (In_lookup _ _ _ Hn) in H1. rewrite H1. cbn [bind text].
      assert (Ec := H2). apply elements_iff in Ec; auto. rewrite Ec. cbn [bind].
      assert (N1 : NoDup ([n] ++ cns)) by (apply (NoDup_app_left _ ens); rewrite <- app_assoc; exact H6).
      match goal with |- context [fold_left ?f (number_from 0 cs) ?i] => 
        assert (E1 : fold_left f (number_from 0 cs) i = Ok ([n] ++ cns, [])) end.
      { apply name_errors_iff; [repeat constructor; intros [] | eapply elements_wf; eauto | ]. split; auto. exists cns. auto. }
      rewrite E1. cbn [bind fst snd]. assert (Ee := H3). apply elements_iff in Ee; auto. rewrite Ee. cbn [bind].
      match goal with |- context [fold_left ?f (number_from 0 es) ?i] => 
        assert (E2 : fold_left f (number_from 0 es) i = Ok (([n] ++ cns) ++ ens, [])) end.
      { apply name_errors_iff; [exact N1 | eapply elements_wf; eauto | ]. split; auto. exists ens. repeat split; auto. }
      rewrite E2. cbn [bind fst snd app]. reflexivity.
  Qed.

  (** * Plurals *)

  Lemma insert_In {A} (e f : str * A) l : In f (insert_item e l) <-> f = e \/ In f l.
  Proof.
    induction l as [|g l IH]; cbn [insert_item]; [cbn; intuition|].
    destruct (str_le (fst e) (fst g)); cbn [In]; [intuition|]. rewrite IH. intuition.
  Qed.
  Lemma insert_perm {A} (e : str * A) l : Permutation (e :: l) (insert_item e l).
  Proof.
    induction l as [|g l IH]; cbn [insert_item]; [reflexivity|].
    destruct (str_le (fst e) (fst g)); [reflexivity|]. rewrite perm_swap. now constructor.
  Qed.
  Lemma sort_perm {A} (l : list (str * A)) : Permutation l (sort_items l).
  Proof.
    induction l as [|e l IH]; cbn [sort_items fold_right]; [reflexivity|]. etransitivity; [|apply insert_perm].
    now constructor.
  Qed.
  Lemma item_list_perm {A} (l : list (str * A)) : Permutation l (item_list ordered l).
  Proof. unfold item_list. destruct ordered; [reflexivity | apply sort_perm]. Qed.
  Lemma item_list_keys {A} (l : list (str * A)) k : In k (keys (item_list ordered l)) <-> In k (keys l).
  Proof.
    unfold keys. rewrite !in_map_iff. split; intros (x & E & H); exists x; (split; [exact E|]);
      eapply Permutation_in; try exact H; [symmetry|]; apply item_list_perm.
  Qed.

  Lemma plural_of_lookup l p : NoDup (keys l) ->
    plural_of (JObj l) p <->
    match lookup (s_ "plural") l with
    | Some v => v = JStr p
    | None => exists n, lookup (s_ "name") l = Some (JStr n) /\ p = plural n
    end.
  Proof.
    intros Hn. unfold plural_of. split.
    - intros (l' & [= <-] & [H | [H (n & H1 & ->)]]).
      + apply (In_lookup _ _ _ Hn) in H. now rewrite H.
      + apply no_member_lookup in H. rewrite H. exists n. split; auto. now apply (In_lookup _ _ _ Hn).
    - intros H. exists l. split; auto. destruct (lookup (s_ "plural") l) as [v|] eqn:E.
      + subst v. left. now apply lookup_In.
      + right. split; [now apply no_member_lookup|]. destruct H as (n & H & ->). exists n. split; auto. now apply lookup_In.
  Qed.

  Lemma registry_ok c n : json_wf c -> name_of c n -> (exists l, c = JObj l /\ maybe l "plural" (a_text any)) ->
    exists p, plural_of c p /\ (do fs <- fields c; registry_of_class fs) =
      match json_plural p with Ok k => Ok (Some (k, n)) | Raise e => Raise e end.
  Proof.
    intros Hw (l & -> & Hl) (l' & [= <-] & Hp). apply wf_obj in Hw. destruct Hw as [Hn Hw].
    apply (In_lookup _ _ _ Hn) in Hl. apply (maybe_lookup l Hn) in Hp. cbn [fields bind]. unfold registry_of_class.
    destruct (lookup (s_ "plural") l) as [v|] eqn:E.
    - destruct Hp as (s & -> & _). exists s. split; [apply plural_of_lookup; auto; now rewrite E|]. cbn [text bind].
      destruct (json_plural s); cbn [bind]; [|reflexivity]. unfold M_Validate.get. rewrite Hl. reflexivity.
    - exists (plural n). split; [apply plural_of_lookup; auto; rewrite E; eauto|]. rewrite Hl. cbn [text bind].
      destruct (json_plural (plural n)); cbn [bind]; [|reflexivity]. unfold M_Validate.get. rewrite Hl. reflexivity.
  Qed.
  Lemma plural_of_unique c p q : json_wf c -> plural_of c p -> plural_of c q -> p = q.
  Proof.
    intros Hw Hp Hq. assert (Hp' := Hp). destruct Hp' as (l & -> & _). apply wf_obj in Hw. destruct Hw as [Hn _].
    apply plural_of_lookup in Hp, Hq; auto. destruct (lookup (s_ "plural") l); [congruence|].
    destruct Hp as (n & E1 & ->), Hq as (m & E2 & ->). congruence.
  Qed.

  Lemma table_In regs : forall t k,
    In k (keys (fold_left (fun t (r : option (str * str)) => match r with Some (k, n) => upsert k n t | None => t end) regs t)) <->
    In k (keys t) \/ exists n, In (Some (k, n)) regs.
  Proof.
    induction regs as [|r regs IH]; intros t k; cbn [fold_left].
    - split; [auto|]. intros [H | (n & [])]. exact H.
    - rewrite IH. destruct r as [(k', n')|].
      + rewrite keys_upsert_In. cbn [In]. split.
        * intros [[-> | H] | (n & H)]; eauto.
        * intros [H | (n & [[= -> ->] | H])]; eauto.
      + cbn [In]. split; [intros [H | (n & H)]; eauto | intros [H | (n & [[=] | H])]; eauto].
  Qed.

  Lemma plurals_iff l ref classes cns : json_wf (JObj l) ->
    list_under l "classes" classes -> Forall2 name_of classes cns ->
    (forall c, In c classes -> exists m, c = JObj m /\ maybe m "plural" (a_text any)) ->
    (forall v, In (s_ "properties", v) l -> exists ps, v = JObj ps) ->
    let clear := forall ps c p, In (s_ "properties", JObj ps) l -> In c classes -> plural_of c p -> ~ In (lower p) (keys ps) in
    (validate_plurals ordered l ref = Ok [] -> clear) /\
    ((forall c p, In c classes -> plural_of c p -> starts capital p) -> clear -> validate_plurals ordered l ref = Ok []).
  Proof.
    intros Hwl Hcl Hnames Hcs Hps clear. assert (Hw := Hwl). apply wf_obj in Hw. destruct Hw as [Hn Hw].
    assert (Hwc := elements_wf l "classes" classes Hwl Hcl).
    unfold validate_plurals. destruct Hcl as [Hcl | [Hcl ->]].
    2:{ apply no_member_lookup in Hcl. rewrite Hcl. split; [|reflexivity]. intros _ ps c p _ []. }
    apply (In_lookup _ _ _ Hn) in Hcl. rewrite Hcl.
    destruct (lookup (s_ "properties") l) as [v|] eqn:Ep.
    2:{ split; [|reflexivity]. intros _ ps c p H. apply (In_lookup _ _ _ Hn) in H. congruence. }
    destruct (Hps v (lookup_In _ _ _ Ep)) as (ps & ->). cbn [items fields bind].
    assert (Hreg : Forall2 (fun c n => exists p, plural_of c p /\ (do fs <- fields c; registry_of_class fs) =
      match json_plural p with Ok k => Ok (Some (k, n)) | Raise e => Raise e end) classes cns).
    { clear - Hnames Hcs Hwc. induction Hnames as [|c n cs ns Hc Hnames IH]; constructor.
      - apply registry_ok; auto; [apply Hwc; now left | apply Hcs; now left].
      - apply IH; intros; [apply Hcs | apply Hwc]; now right. }
    split.
    - intros H ps' c p Hin Hc Hp.
      assert (E := unique l Hn _ _ _ (lookup_In _ _ _ Ep) Hin). injection E as <-.
      destruct (mapM _ classes) as [regs|] eqn:Em; [|discriminate]. cbn [bind] in H. injection H as H.
      apply mapM_Ok in Em. intros Hk.
      assert (Hr : exists n, In (Some (lower p, n)) regs).
      { clear - Em Hreg Hc Hp Hwc. revert cns Hreg. induction Em as [|c' r cs rs Hr Em IH]; intros cns Hreg; [contradiction|].
        inversion Hreg as [|? n ? ns (q & Hq & Hq') Hreg']; subst. destruct Hc as [-> | Hc].
        - assert (Eq : q = p) by (eapply plural_of_unique; eauto; apply Hwc; now left). subst q. rewrite Hr in Hq'.
          unfold json_plural in Hq'. destruct (initial_upper p); [|discriminate]. injection Hq' as ->. exists n. now left.
        - destruct (IH) with (cns := ns) as (m & Hm); auto; [intros; apply Hwc; now right|]. exists m. now right. }
      set (table := fold_left _ regs []) in *.
      assert (Ht : In (lower p) (keys table)) by (apply table_In; right; exact Hr).
      apply lookup_key_Some in Ht. destruct Ht as (cn & Ht).
      assert (Hkk : In (lower p) (keys (item_list ordered ps))) by now apply item_list_keys.
      assert (Hbad : In (SErr (ref ++ s_ "/" ++ lower p) (EPlural (lower p) cn))
        (flat_map (fun k => match lookup k table with Some c => [SErr (ref ++ s_ "/" ++ k) (EPlural k c)] | None => [] end)
           (keys (item_list ordered ps)))).
      { apply in_flat_map. exists (lower p). split; auto. rewrite Ht. now left. }
      exact (eq_ind _ (fun xs => In (SErr (ref ++ s_ "/" ++ lower p) (EPlural (lower p) cn)) xs) Hbad [] H).
    - intros Hcap Hclear.
      assert (Hmap : exists regs, mapM (fun c => do fs <- fields c; registry_of_class fs) classes = Ok regs /\
        forall k n, In (Some (k, n)) regs -> exists c p, In c classes /\ plural_of c p /\ k = lower p).
      { clear - Hreg Hcap. induction Hreg as [|c n cs ns (p & Hp & Er) Hreg IH].
        - exists []. split; [reflexivity|]. intros k n [].
        - destruct IH as (regs & Em & HR); [intros; eapply Hcap; eauto; now right|].
          assert (Hc : starts capital p) by (eapply Hcap; eauto; now left). apply initial_ok in Hc.
          unfold json_plural in Er. rewrite Hc in Er. exists (Some (lower p, n) :: regs). split.
          + cbn [mapM]. rewrite Er. cbn [bind]. rewrite Em. reflexivity.
          + intros k m [[= <- <-] | H]; [exists c, p; cbn; auto|]. destruct (HR _ _ H) as (c' & p' & H1 & H2 & H3).
            exists c', p'. cbn. auto. }
      destruct Hmap as (regs & -> & HR). cbn [bind]. f_equal.
      set (table := fold_left _ regs []).
      assert (Hnil : forall k, In k (keys (item_list ordered ps)) -> lookup k table = None).
      { intros k Hk. apply (proj1 (item_list_keys ps k)) in Hk. apply lookup_None. intros Ht. apply table_In in Ht.
        destruct Ht as [[] | (n & Ht)]. destruct (HR _ _ Ht) as (c & p & H1 & H2 & ->).
        refine (Hclear ps c p _ H1 H2 Hk). now apply lookup_In. }
      induction (keys (item_list ordered ps)) as [|k ks IH]; [reflexivity|]. cbn [flat_map].
      rewrite Hnil by now left. apply IH. intros; apply Hnil; now right.
  Qed.

  (** * Documents *)

  Lemma capital_not_noncomposite n : starts capital n -> ~ In n NONCOMPOSITE.
  Proof.
    intros (c & r & -> & Hc) H. rewrite NONCOMPOSITE_eq in H. cbn in H.
    repeat destruct H as [H | H]; try contradiction; injection H as <- _; unfold capital in Hc; lia.
  Qed.
  Lemma lax_identifier_starts n : lax (identifier capital) n -> starts capital n.
  Proof.
    intros [(c & r & -> & Hc & _) | (q & -> & c & r & -> & Hc & _)]; [exists c, r | exists c, (r ++ [10%N])]; auto.
  Qed.

  Lemma top_iff l ref : In (s_ "name") (keys l) -> In (s_ "description") (keys l) ->
    validate_top ordered l ref = Ok [] <->
    (ordered = true -> exists a d r, l = (s_ "name", a) :: (s_ "description", d) :: r).
  Proof.
    intros H1 H2. unfold validate_top. destruct ordered; [|split; [discriminate | reflexivity]].
    destruct l as [|(k0, a) [|(k1, d) r]]; cbn [keys map fst] in *.
    - contradiction.
    - exfalso. destruct H1 as [H1 | []], H2 as [H2 | []]. rewrite H1 in H2. discriminate.
    - destruct (str_eqb k0 (s_ "name")) eqn:E0; [apply str_eqb_eq in E0 | apply str_eqb_neq in E0];
        (destruct (str_eqb k1 (s_ "description")) eqn:E1; [apply str_eqb_eq in E1 | apply str_eqb_neq in E1]);
        cbn [app]; (split; intros H; [try discriminate | ]).
      + intros _. subst. eauto.
      + reflexivity.
      + destruct (H eq_refl) as (? & ? & ? & [= -> -> -> -> ->]). congruence.
      + destruct (H eq_refl) as (? & ? & ? & [= -> -> -> -> ->]). congruence.
      + destruct (H eq_refl) as (? & ? & ? & [= -> -> -> -> ->]). congruence.
  Qed.

  Definition graph_shape (l : list (str * jval)) : Prop :=
    only l ["name"; "description"; "cpp"; "go"; "py"; "classes"; "embeds"; "properties"]%string /\
    member l "name" (a_text (starts capital)) /\
    member l "description" (a_text (lax description_shape)) /\
    maybe l "cpp" cpp_ok /\ maybe l "go" go_ok /\ maybe l "py" py_ok /\
    maybe l "classes" (fun v => exists cs, v = JArr cs /\ forall c, In c cs -> jvalid CLASS c = true) /\
    maybe l "embeds" (fun v => exists es, v = JArr es /\ forall e, In e es -> jvalid EMBED e = true) /\
    maybe l "properties" (fun v => jvalid PROPERTIES v = true).

  Lemma j_array s v : jvalid (SArray s) v = true <-> exists l, v = JArr l /\ forall x, In x l -> jvalid s x = true.
  Proof.
    destruct v; try (split; [discriminate | intros (? & E & _); discriminate]). cbn [jvalid]. rewrite forallb_forall.
    split; [eauto|]. intros (? & [= <-] & H). exact H.
  Qed.
  Lemma maybe_iff_in l k (P Q : jval -> Prop) : (forall v, In (s_ k, v) l -> (P v <-> Q v)) -> maybe l k P <-> maybe l k Q.
  Proof. unfold maybe. intros H. split; intros H' v Hv; apply (H v Hv); auto. Qed.

  Lemma j_graph v : json_wf v -> jvalid GRAPH v = true <-> exists l, v = JObj l /\ graph_shape l.
  Proof.
    set (ks := ["name"; "description"; "cpp"; "go"; "py"; "classes"; "embeds"; "properties"]%string).
    intros Hw. unfold graph_shape. fold ks.
    assert (Hmain : forall l, json_wf (JObj l) -> jvalid GRAPH (JObj l) = true <->
      (only l ks /\
      member l "name" (a_text (starts capital)) /\
      member l "description" (a_text (lax description_shape)) /\
      maybe l "cpp" cpp_ok /\ maybe l "go" go_ok /\ maybe l "py" py_ok /\
      maybe l "classes" (fun v => exists cs, v = JArr cs /\ forall c, In c cs -> jvalid CLASS c = true) /\
      maybe l "embeds" (fun v => exists es, v = JArr es /\ forall e, In e es -> jvalid EMBED e = true) /\
      maybe l "properties" (fun v => jvalid PROPERTIES v = true))).
    { intros l Hl. apply wf_obj in Hl. destruct Hl as [Hn Hl]. unfold GRAPH.
      rewrite (jvalid_closed _ _ _ ks); [|exact Hn|reflexivity].
      rewrite !valid_cons, !Forall_cons_iff. rewrite !member_iff by exact Hn.
      rewrite (maybe_iff _ _ _ _ (fun v => j_text _ _ v initial_ok)).
      rewrite (maybe_iff _ _ _ _ (fun v => j_text _ _ v description_ok)).
      rewrite (maybe_iff_in l "cpp" _ cpp_ok) by (intros; apply j_cpp; eauto).
      rewrite (maybe_iff_in l "go" _ go_ok) by (intros; apply j_go; eauto).
      rewrite (maybe_iff_in l "py" _ py_ok) by (intros; apply j_py; eauto).
      rewrite (maybe_iff _ _ _ _ (j_array CLASS)), (maybe_iff _ _ _ _ (j_array EMBED)).
      assert (T1 : Forall (valid_member l) []) by constructor.
      assert (T2 : Forall (fun k : str => In k (keys l)) []) by constructor. tauto. }
    split.
    - intros H. destruct (obj_of _ _ ltac:(unfold GRAPH; eauto) H) as (l & ->). exists l. split; [reflexivity|].
      apply Hmain; auto.
    - intros (l & -> & H). apply Hmain; auto.
  Qed.

  Lemma list_under_unique l k xs ys : NoDup (keys l) -> list_under l k xs -> list_under l k ys -> xs = ys.
  Proof. intros Hn H1 H2. apply elements_iff in H1, H2; auto. congruence. Qed.
  Lemma Forall2_name_unique xs : (forall v, In v xs -> json_wf v) -> forall ns ms, Forall2 name_of xs ns -> Forall2 name_of xs ms -> ns = ms.
  Proof.
    induction xs as [|x xs IH]; intros Hw ns ms H1 H2; inversion H1 as [|? n ? ns' A1 A2];
      inversion H2 as [|? m ? ms' B1 B2]; subst; [reflexivity|]. f_equal.
    - destruct A1 as (l & -> & A1), B1 as (l' & [= <-] & B1).
      assert (Hx := Hw _ (or_introl eq_refl)). apply wf_obj in Hx.
      assert (E := unique l (proj1 Hx) _ _ _ A1 B1). congruence.
    - apply IH; auto. intros v Hv. apply Hw. now right.
  Qed.

  Theorem validate_iff v ref : json_wf v ->
    (validate re_ok ordered v ref = Ok [] -> document re_ok ordered v) /\
    (capital_plurals v -> document re_ok ordered v -> validate re_ok ordered v ref = Ok []).
  Proof.
    intros Hw. unfold validate. split.
    - destruct (jvalid GRAPH v) eqn:Ej; cbn [negb]; [|discriminate]. apply j_graph in Ej; auto.
      destruct Ej as (l & -> & S1 & S2 & S3 & S4 & S5 & S6 & S7 & S8 & S9). cbn [fields bind].
      assert (Hw' := Hw). apply wf_obj in Hw'. destruct Hw' as [Hn Hwl].
      destruct (validate_top ordered l ref) as [top|] eqn:Et; [|discriminate]. cbn [bind].
      destruct (validate_names l ref) as [(names, nerrs)|] eqn:En; [|discriminate]. cbn [bind fst snd].
      destruct (elements (s_ "classes") l) as [classes|] eqn:Ec; [|discriminate]. cbn [bind].
      match goal with |- bind ?m _ = _ -> _ => destruct m as [cerrs|] eqn:Ecl end; [|discriminate]. cbn [bind].
      match goal with |- bind ?m _ = _ -> _ => destruct m as [gerrs|] eqn:Eg end; [|discriminate]. cbn [bind].
      match goal with |- bind ?m _ = _ -> _ => destruct m as [cperrs|] eqn:Ecp end; [|discriminate]. cbn [bind].
      destruct (elements (s_ "embeds") l) as [embeds|] eqn:Ee; [|discriminate]. cbn [bind].
      match goal with |- bind ?m _ = _ -> _ => destruct m as [eperrs|] eqn:Eep end; [|discriminate]. cbn [bind].
      destruct (validate_plurals ordered l ref) as [perrs|] eqn:Epl; [|discriminate]. cbn [bind].
      intros [= H]. repeat (apply app_eq_nil in H; let H' := fresh "Z" in destruct H as [H' H]). subst.
      apply elements_iff in Ec, Ee; auto.
      apply validate_names_iff in En; auto. destruct En as (n & cs & es & cns & ens & N1 & N2 & N3 & N4 & N5 & -> & N6).
      assert (cs = classes) by (eapply list_under_unique; eauto). assert (es = embeds) by (eapply list_under_unique; eauto). subst cs es.
      assert (Hcw := elements_wf _ _ _ Hw N2). assert (Hew := elements_wf _ _ _ Hw N3).
      assert (Hcj : forall c, In c classes -> jvalid CLASS c = true).
      { destruct N2 as [N2 | [_ ->]]; [|intros c []]. destruct (S7 _ N2) as (cs & [= <-] & H). exact H. }
      assert (Hej : forall e, In e embeds -> jvalid EMBED e = true).
      { destruct N3 as [N3 | [_ ->]]; [|intros c []]. destruct (S8 _ N3) as (cs & [= <-] & H). exact H. }
      assert (Hstart : starts capital n).
      { destruct S2 as (w & Hw2 & s & -> & Hs). assert (E := unique l Hn _ _ _ N1 Hw2). congruence. }
      assert (Hnames : forall x, In x (n :: cns ++ ens) -> ~ In x NONCOMPOSITE).
      { intros x Hx. apply capital_not_noncomposite. destruct Hx as [<- | Hx]; [exact Hstart|].
        apply in_app_iff in Hx. destruct Hx as [Hx | Hx].
        - clear - N4 Hx Hcj Hcw. induction N4 as [|c m cs ns (lc & -> & Hc) N4 IH]; [contradiction|].
          destruct Hx as [<- | Hx]; [|apply IH; auto; intros; solve [apply Hcj; now right | apply Hcw; now right]].
          assert (Hj := Hcj _ (or_introl eq_refl)). assert (Hww := Hcw _ (or_introl eq_refl)). apply j_class in Hj; auto.
          destruct Hj as (l' & [= <-] & _ & (w & Hw1 & s & -> & Hs) & _). apply wf_obj in Hww.
          assert (E := unique lc (proj1 Hww) _ _ _ Hc Hw1). injection E as ->. now apply lax_identifier_starts.
        - clear - N5 Hx Hej Hew. induction N5 as [|c m cs ns (lc & -> & Hc) N5 IH]; [contradiction|].
          destruct Hx as [<- | Hx]; [|apply IH; auto; intros; solve [apply Hej; now right | apply Hew; now right]].
          assert (Hj := Hej _ (or_introl eq_refl)). assert (Hww := Hew _ (or_introl eq_refl)). apply j_embed in Hj; auto.
          destruct Hj as (l' & [= <-] & _ & (w & Hw1 & s & -> & Hs) & _). apply wf_obj in Hww.
          assert (E := unique lc (proj1 Hww) _ _ _ Hc Hw1). injection E as ->. exact Hs. }
      assert (Hcerr := proj1 (mapM_nil _ _) (ex_intro _ _ (conj Ecl Z1))).
      assert (Hcperr := proj1 (mapM_nil _ _) (ex_intro _ _ (conj Ecp Z3))).
      assert (Heperr := proj1 (mapM_nil _ _) (ex_intro _ _ (conj Eep Z4))).
      assert (Hcls : forall c, In c classes -> class_ok re_ok ordered (n :: cns ++ ens) c).
      { intros c Hc. apply In_nth_error in Hc. destruct Hc as (i & Hi). apply enumerate_In in Hi.
        assert (Hc := nth_error_In _ _ (proj1 (enumerate_In _ _ _) Hi)).
        apply (class_iff (n :: cns ++ ens) Hnames c (nth_ref ref (s_ "classes") i) (nth_ref ref (s_ "classes") i)); auto.
        split; [auto|]. split; [exact (Hcerr _ Hi) | exact (Hcperr _ Hi)]. }
      apply (document_of re_ok ordered l n classes embeds cns ens); auto.
      + apply (proj1 (top_iff l ref (member_keys _ _ _ S2) (member_keys _ _ _ S3)) Et).
      + intros e He. apply In_nth_error in He. destruct He as (i & Hi). apply enumerate_In in Hi.
        assert (He := nth_error_In _ _ (proj1 (enumerate_In _ _ _) Hi)).
        apply (embed_iff (n :: cns ++ ens) Hnames e (nth_ref ref (s_ "embeds") i)); auto.
        split; [auto | exact (Heperr _ Hi)].
      + apply (properties_iff (n :: cns ++ ens) Hnames l ref []); auto.
      + refine (proj1 (plurals_iff l ref classes cns Hw N2 N4 _ _) Epl).
        * intros c Hc. destruct (Hcls c Hc) as (m & -> & _ & _ & _ & Hp & _). exists m. split; auto.
          intros w Hw2. destruct (Hp w Hw2) as (s & -> & _). exists s. split; [reflexivity | exact I].
        * intros w Hw2. specialize (S9 w Hw2). apply j_properties in S9; [|eauto]. destruct S9 as (ps & -> & _). eauto.
    - intros Hcap Hd. inversion Hd as [l n classes embeds cns ens D1 D2 D3 D4 D5 D6 D7 D8 D9 D10 D11 D12 D13 D14 D15 D16 D17 El]. subst v.
      assert (Hw' := Hw). apply wf_obj in Hw'. destruct Hw' as [Hn Hwl].
      assert (Hcw := elements_wf _ _ _ Hw D9). assert (Hew := elements_wf _ _ _ Hw D10).
      assert (Hnames : forall x, In x (n :: cns ++ ens) -> ~ In x NONCOMPOSITE).
      { intros x Hx. apply capital_not_noncomposite. destruct Hx as [<- | Hx]; [exact D4|].
        apply in_app_iff in Hx. destruct Hx as [Hx | Hx].
        - assert (Hok : forall c, In c classes -> exists m, c = JObj m /\ member m "name" (a_text (starts capital))).
          { intros c Hc. destruct (D14 c Hc) as (m & -> & _ & (w & Hw1 & s & -> & Hs) & _). exists m. split; [reflexivity|].
            exists (JStr s). split; auto. exists s. split; [reflexivity|]. now apply lax_identifier_starts. }
          clear - D11 Hx Hok Hcw. induction D11 as [|c m cs ns (lc & -> & Hc) D11 IH]; [contradiction|].
          destruct Hx as [<- | Hx]; [|apply IH; auto; intros; solve [apply Hok; now right | apply Hcw; now right]].
          assert (Hww := Hcw _ (or_introl eq_refl)). destruct (Hok _ (or_introl eq_refl)) as (l' & [= <-] & w & Hw1 & s & -> & Hs).
          apply wf_obj in Hww. assert (E := unique lc (proj1 Hww) _ _ _ Hc Hw1). injection E as ->. exact Hs.
        - assert (Hok : forall c, In c embeds -> exists m, c = JObj m /\ member m "name" (a_text (starts capital))).
          { intros c Hc. destruct (D15 c Hc) as (m & -> & _ & H & _). eauto. }
          clear - D12 Hx Hok Hew. induction D12 as [|c m cs ns (lc & -> & Hc) D12 IH]; [contradiction|].
          destruct Hx as [<- | Hx]; [|apply IH; auto; intros; solve [apply Hok; now right | apply Hew; now right]].
          assert (Hww := Hew _ (or_introl eq_refl)). destruct (Hok _ (or_introl eq_refl)) as (l' & [= <-] & w & Hw1 & s & -> & Hs).
          apply wf_obj in Hww. assert (E := unique lc (proj1 Hww) _ _ _ Hc Hw1). injection E as ->. exact Hs. }
      assert (Hclass : forall c i, In c classes -> _) by
        (intros c i Hc; exact (proj2 (class_iff (n :: cns ++ ens) Hnames c (nth_ref ref (s_ "classes") i)
           (nth_ref ref (s_ "classes") i) (Hcw c Hc)) (D14 c Hc))).
      assert (Hembed : forall e i, In e embeds -> _) by
        (intros e i He; exact (proj2 (embed_iff (n :: cns ++ ens) Hnames e (nth_ref ref (s_ "embeds") i) (Hew e He)) (D15 e He))).
      assert (Hps := proj2 (properties_iff (n :: cns ++ ens) Hnames l ref [] Hw) D16).
      destruct Hps as [[Hps1 Hps2] _].
      assert (Hname : member l "name" (a_text (starts capital))).
      { exists (JStr n). split; auto. exists n. auto. }
      assert (Ej : jvalid GRAPH (JObj l) = true).
      { apply j_graph; auto. exists l. split; [reflexivity|]. unfold graph_shape. repeat split; auto.
        - intros w Hw1. destruct D9 as [D9 | [D9 _]].
          + rewrite (unique l Hn _ _ _ Hw1 D9). exists classes. split; auto. intros c Hc. apply (Hclass c 0 Hc).
          + exfalso. apply D9. apply in_map_iff. exists (s_ "classes", w). auto.
        - intros w Hw1. destruct D10 as [D10 | [D10 _]].
          + rewrite (unique l Hn _ _ _ Hw1 D10). exists embeds. split; auto. intros c Hc. apply (Hembed c 0 Hc).
          + exfalso. apply D10. apply in_map_iff. exists (s_ "embeds", w). auto. }
      rewrite Ej. cbn [negb fields bind].
      rewrite (proj2 (top_iff l ref (member_keys _ _ _ Hname) (member_keys _ _ _ D5)) D2). cbn [bind].
      assert (En : validate_names l ref = Ok (n :: cns ++ ens, [])).
      { apply validate_names_iff; auto. exists n, classes, embeds, cns, ens. repeat split; auto. }
      rewrite En. cbn [bind fst snd].
      rewrite (proj2 (elements_iff l "classes" classes Hn) D9). cbn [bind].
      match goal with |- context [mapM ?f (enumerate classes)] =>
        assert (M1 : forall x, In x (enumerate classes) -> f x = Ok []) end.
      { intros (i, c) Hi. apply enumerate_In, nth_error_In in Hi. apply (Hclass c i Hi). }
      apply mapM_nil in M1. destruct M1 as (y1 & M1 & M1'). rewrite M1. cbn [bind].
      rewrite Hps2. cbn [bind].
      match goal with |- context [mapM ?f (enumerate classes)] =>
        assert (M2 : forall x, In x (enumerate classes) -> f x = Ok []) end.
      { intros (i, c) Hi. apply enumerate_In, nth_error_In in Hi. apply (Hclass c i Hi). }
      apply mapM_nil in M2. destruct M2 as (y2 & M2 & M2'). rewrite M2. cbn [bind].
      rewrite (proj2 (elements_iff l "embeds" embeds Hn) D10). cbn [bind].
      match goal with |- context [mapM ?f (enumerate embeds)] =>
        assert (M3 : forall x, In x (enumerate embeds) -> f x = Ok []) end.
      { intros (i, c) Hi. apply enumerate_In, nth_error_In in Hi. apply (Hembed c i Hi). }
      apply mapM_nil in M3. destruct M3 as (y3 & M3 & M3'). rewrite M3. cbn [bind].
      rewrite M1', M2', M3'.
      assert (Ep : validate_plurals ordered l ref = Ok []).
      { refine (proj2 (plurals_iff l ref classes cns Hw D9 D11 _ _) _ D17).
        - intros c Hc. destruct (D14 c Hc) as (m & -> & _ & _ & _ & Hp & _). exists m. split; auto.
          intros w Hw2. destruct (Hp w Hw2) as (s & -> & _). exists s. split; [reflexivity | exact I].
        - intros w Hw2. destruct (D16 w Hw2) as (ps & -> & _). eauto.
        - intros c p Hc Hp. destruct D9 as [D9 | [_ ->]]; [|contradiction]. exact (Hcap l classes c p eq_refl D9 Hc Hp). }
      rewrite Ep. reflexivity.
  Qed.
End Documents.
