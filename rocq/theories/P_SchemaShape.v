(** Proofs about the errors of the validation: the errors of jsonschema. *)
From Coq Require Import String List Arith NArith ZArith QArith Bool Lia Permutation Floats.SpecFloat.
From Verif Require Import Base M_Naming M_Schema M_Dec M_Strftime M_Validate S_Conform P_Naming S_Validate P_Validate
  P_ValidateType P_ValidateDoc S_SchemaErrors P_SchemaErrors.
Import ListNotations.
Open Scope list_scope.
Local Open Scope nat_scope.

Lemma object_blame_iff ps req add x path : json_wf x ->
  In path (jblame (SObject ps req add) x) <->
  ((forall m, x <> JObj m) /\ path = []) \/
  exists m, x = JObj m /\
    ((exists k s y p, In (k, s) ps /\ In (k, y) m /\ In p (jblame s y) /\ path = k :: p) \/
     (exists k, In k req /\ ~ In k (keys m) /\ path = []) \/
     (exists k y, In (k, y) m /\ ~ In k (keys ps) /\
        ((add = None /\ path = []) \/ exists a p, add = Some a /\ In p (jblame a y) /\ path = k :: p))).
Proof.
  intros Hw. destruct x as [| | | | | |m];
    try (cbn; split;
      [intros [<-|[]]; left; split; [discriminate | reflexivity]
      | intros [[_ ->] | (m & E & _)]; [now left | discriminate]]).
  apply wf_obj in Hw. destruct Hw as [Hn Hw]. rewrite jblame_object. unfold object_blame. rewrite !in_app_iff, !in_flat_map. split.
  - intros H. right. exists m. split; [reflexivity|].
    destruct H as [((k, s) & Hin & H) | [(k & Hr & H) | ((k, y) & Hin & H)]]; cbn [fst snd] in H.
    + left. destruct (lookup k m) as [y|] eqn:E; [|contradiction]. apply lookup_In in E. apply in_map_iff in H. destruct H as (p & <- & Hp). exists k, s, y, p. auto.
    + right. left. destruct (mem k (keys m)) eqn:E; [contradiction|]. destruct H as [<-|[]]. exists k. apply mem_not_In in E. auto.
    + right. right. exists k, y. destruct (mem k (keys ps)) eqn:E; [contradiction|]. apply mem_not_In in E. split; [exact Hin|]. split; [exact E|].
      destruct add as [a|].
      * right. apply in_map_iff in H. destruct H as (p & <- & Hp). exists a, p. auto.
      * left. destruct H as [<-|[]]. auto.
  - intros [[H _] | (m' & [= <-] & H)]; [now destruct (H m)|].
    destruct H as [(k & s & y & p & Hin & Hy & Hp & ->) | [(k & Hr & Hk & ->) | (k & y & Hy & Hk & H)]].
    + left. exists (k, s). split; [exact Hin|]. cbn [fst snd]. rewrite (In_lookup _ _ _ Hn Hy). now apply in_map.
    + right. left. exists k. split; [exact Hr|]. apply mem_not_In in Hk. rewrite Hk. now left.
    + right. right. exists (k, y). split; [exact Hy|]. cbn [fst snd]. apply mem_not_In in Hk. rewrite Hk.
      destruct H as [[-> ->] | (a & p & -> & Hp & ->)]; [now left | now apply in_map].
Qed.

Lemma items_blame_iff i l path : forall n, In path (items_blame i n l) <->
  exists j x p, nth_error l j = Some x /\ In p (jblame i x) /\ path = dec_nat (n + j) :: p.
Proof.
  intros n. split; [apply items_blame_In|]. revert n. induction l as [|y l IH]; intros n ([|j] & x & p & A & B & ->); try discriminate;
    cbn [items_blame]; apply in_app_iff.
  - left. injection A as ->. rewrite Nat.add_0_r. now apply in_map.
  - right. apply IH. exists j, x, p. rewrite Nat.add_succ_r. auto.
Qed.
Lemma array_blame_iff i x path :
  In path (jblame (SArray i) x) <->
  ((forall l, x <> JArr l) /\ path = []) \/
  exists l j y p, x = JArr l /\ nth_error l j = Some y /\ In p (jblame i y) /\ path = dec_nat j :: p.
Proof.
  destruct x as [| | | | |l|];
    try (cbn; split;
      [intros [<-|[]]; left; split; [discriminate | reflexivity]
      | intros [[_ ->] | (m & j & y & p & E & _)]; [now left | discriminate]]).
  rewrite jblame_array, items_blame_iff. split.
  - intros (j & x & p & A & B & C). right. exists l, j, x, p. auto.
  - intros [[H _] | (l' & j & y & p & [= <-] & A & B & C)]; [now destruct (H l)|]. exists j, y, p. auto.
Qed.
Lemma leaf_blame_iff s x p : leaf s -> In p (jblame s x) <-> p = [] /\ jvalid s x = false.
Proof.
  intros Hl. split; [intros H; now apply leaf_blame|]. intros [-> H].
  assert (Hdef : forall b : bool, b = false -> In [] (if b then [] else [[]] : list (list str))) by (intros [] E; [discriminate | now left]).
  destruct s; try contradiction; destruct x; cbn [jblame]; now apply Hdef.
Qed.

Definition schema_of_kind (k : part_kind) : jschema :=
  match k with
  | KGraph => GRAPH | KCpp => CPP | KGo => GO | KPy => PY | KClass => CLASS | KEmbed => EMBED | KProperty => PROPERTY
  end.

Section Shape.
  Variable v : jval.
  Hypothesis wf : json_wf v.
  Notation place := (place v).
  Notation misshapen := (misshapen v).

  Lemma array_wf l : json_wf (JArr l) -> forall x, In x l -> json_wf x.
  Proof. intros H. now inversion H. Qed.
  Lemma place_wf k path x : place k path x -> json_wf x.
  Proof.
    induction 1 as [|l x E H|l x E H|l x E H|l cs i x E H H'|l cs i x E H H'|k path c ps n p H IH _ Hps Hp]; [exact wf | ..];
      try (rewrite E in wf; assert (Hw := proj2 (wf_obj _ wf) _ _ H)); try exact Hw;
      try (apply nth_error_In in H'; exact (array_wf _ Hw _ H')).
    assert (Hw := proj2 (wf_obj _ IH) _ _ Hps). exact (proj2 (wf_obj _ Hw) _ _ Hp).
  Qed.

  (** ** What jsonschema blames is misshapen *)

  Definition entry_ok (k : part_kind) (e : string * (jval -> Prop)) (s : str * jschema) : Prop :=
    fst s = s_ (fst e) /\
    ((leaf (snd s) /\ forall x, jvalid (snd s) x = true <-> snd e x) \/
     (forall path m y p, place k path (JObj m) -> In (fst s, y) m -> In p (jblame (snd s) y) -> misshapen (path ++ fst s :: p))).

  Lemma blame_misshapen k ps add path x p :
    Forall2 (entry_ok k) (stated_as k) ps -> (k <> KProperty /\ add = None) \/ add = Some SAny ->
    place k path x -> In p (jblame (SObject ps (map s_ (mandatory k)) add) x) -> misshapen (path ++ p).
  Proof.
    intros Hps Hadd Hpl. rewrite object_blame_iff by (eapply place_wf; eauto).
    intros [[Hno ->] | (m & -> & [(key & s & y & q & Hin & Hy & Hq & ->) | [(key & Hr & Hk & ->) | (key & y & Hy & Hk & H)]])].
    - rewrite app_nil_r. eapply not_an_object; eauto.
    - apply In_nth_error in Hin. destruct Hin as (i & Hi).
      assert (He : exists e, nth_error (stated_as k) i = Some e /\ entry_ok k e (key, s)).
      { clear - Hps Hi. revert i Hi. induction Hps as [|e s' es ss H Hps IH]; intros [|i] Hi; try discriminate; [injection Hi as ->; exists e; auto | exact (IH i Hi)]. }
      destruct He as ((key', P) & Hin & E & [[Hl Hv] | Hn]); cbn [fst snd] in *.
      + subst key. apply leaf_blame_iff in Hq; [|exact Hl]. destruct Hq as [-> Hf]. eapply wrong_member; [exact Hpl | eapply nth_error_In; exact Hin | exact Hy|].
        intros HP. apply Hv in HP. congruence.
      + eapply Hn; eauto.
    - rewrite app_nil_r. apply in_map_iff in Hr. destruct Hr as (key' & <- & Hr). eapply missing_member; eauto.
    - destruct Hadd as [[Hk' ->] | ->].
      + destruct H as [[_ ->] | (a & q & [=] & _)]. rewrite app_nil_r. eapply unknown_member; [exact Hpl | exact Hk' | |].
        * apply in_map_iff. exists (key, y). auto.
        * intros H. apply Hk. clear - H Hps. induction Hps as [|e s' es ss [H' _] Hps IH]; [exact H|].
          destruct H as [H|H]; [left; etransitivity; [exact H' | exact H] | right; exact (IH H)].
      + destruct H as [[[=] _] | (a & q & [= <-] & Hq & _)]. rewrite any_blame in Hq. contradiction.
  Qed.

  Local Ltac by_leaf J := split; [reflexivity | left; split; [exact I | exact J]].
  Lemma property_blame path x p : place KProperty path x -> In p (jblame PROPERTY x) -> misshapen (path ++ p).
  Proof.
    apply (blame_misshapen KProperty); [|now right]. cbn [stated_as]; repeat apply Forall2_cons; try apply Forall2_nil; unfold entry_ok; cbn [fst snd];
      first [by_leaf j_string | by_leaf (fun v => j_text _ _ v type_re_ok) | by_leaf j_boolean].
  Qed.
  Lemma properties_blame k path c x p : place k path (JObj c) -> In k [KGraph; KClass; KEmbed] -> In (s_ "properties", x) c ->
    In p (jblame PROPERTIES x) -> misshapen (path ++ s_ "properties" :: p).
  Proof.
    intros Hpl Hk Hx. assert (Hw := proj2 (wf_obj _ (place_wf _ _ _ Hpl)) _ _ Hx). unfold PROPERTIES. rewrite object_blame_iff by exact Hw.
    intros [[Hno ->] | (m & -> & [(key & s & y & q & [] & _) | [(key & [] & _) | (key & y & Hy & _ & [[[=] _] | (a & q & [= <-] & Hq & ->)])]])].
    - eapply (wrong_member v k path c "properties" (fun v => exists ps, v = JObj ps)); [exact Hpl | | exact Hx | intros (ps & ->); now apply (Hno ps)].
      cbn in Hk. destruct Hk as [<-|[<-|[<-|[]]]]; cbn; tauto.
    - change (path ++ s_ "properties" :: key :: q) with (path ++ [s_ "properties"; key] ++ q). rewrite app_assoc. apply (property_blame _ y); [|exact Hq].
      econstructor; eauto.
  Qed.
  Lemma cpp_blame path x p : place KCpp path x -> In p (jblame CPP x) -> misshapen (path ++ p).
  Proof.
    apply (blame_misshapen KCpp); [|left; split; [discriminate | reflexivity]]. cbn [stated_as]; repeat apply Forall2_cons; try apply Forall2_nil; unfold entry_ok; cbn [fst snd];
      first [by_leaf (fun v => j_text _ _ v namespace_ok) | by_leaf (j_enum ["std::filesystem::path"; "boost::filesystem::path"]%string)
            | by_leaf (j_enum ["boost::optional"; "std::optional"; "std::experimental::optional"]%string)
            | by_leaf (j_enum ["ctime"; "date.h"]%string) | by_leaf (fun v => j_text _ _ v indention_ok)].
  Qed.
  Lemma package_ok s : package_re s = true <-> starts letter s.
  Proof. apply starts_ok, alpha_letter. Qed.
  Lemma go_blame path x p : place KGo path x -> In p (jblame GO x) -> misshapen (path ++ p).
  Proof.
    apply (blame_misshapen KGo); [|left; split; [discriminate | reflexivity]]. cbn [stated_as]; repeat apply Forall2_cons; try apply Forall2_nil; unfold entry_ok; cbn [fst snd]; by_leaf (fun v => j_text _ _ v package_ok).
  Qed.
  Lemma py_blame path x p : place KPy path x -> In p (jblame PY x) -> misshapen (path ++ p).
  Proof.
    apply (blame_misshapen KPy); [|left; split; [discriminate | reflexivity]]. cbn [stated_as]; repeat apply Forall2_cons; try apply Forall2_nil; unfold entry_ok; cbn [fst snd];
      first [by_leaf (fun v => j_text _ _ v module_ok) | by_leaf (j_enum ["str"; "pathlib.Path"]%string)
            | by_leaf (j_enum ["str"; "pytz.timezone"]%string) | by_leaf (fun v => j_text _ _ v indention_ok)].
  Qed.
  Lemma class_blame path x p : place KClass path x -> In p (jblame CLASS x) -> misshapen (path ++ p).
  Proof.
    apply (blame_misshapen KClass); [|left; split; [discriminate | reflexivity]]. cbn [stated_as]; repeat apply Forall2_cons; try apply Forall2_nil; unfold entry_ok; cbn [fst snd];
      first [by_leaf (fun v => j_text _ _ v class_name_ok) | by_leaf (fun v => j_text _ _ v description_ok) | by_leaf j_string
            | split; [reflexivity|]; right; intros path' m y q Hpl; apply (properties_blame KClass); [exact Hpl | cbn; tauto]].
  Qed.
  Lemma embed_blame path x p : place KEmbed path x -> In p (jblame EMBED x) -> misshapen (path ++ p).
  Proof.
    apply (blame_misshapen KEmbed); [|left; split; [discriminate | reflexivity]]. cbn [stated_as]; repeat apply Forall2_cons; try apply Forall2_nil; unfold entry_ok; cbn [fst snd];
      first [by_leaf (fun v => j_text _ _ v initial_ok) | by_leaf (fun v => j_text _ _ v description_ok)
            | split; [reflexivity|]; right; intros path' m y q Hpl; apply (properties_blame KEmbed); [exact Hpl | cbn; tauto]].
  Qed.
  Lemma graph_place path x : place KGraph path x -> path = [] /\ x = v.
  Proof. intros H. inversion H. auto. Qed.
  Lemma graph_blame p : In p (jblame GRAPH v) -> misshapen p.
  Proof.
    change p with ([] ++ p) at 2. intros Hp. revert Hp.
    apply (blame_misshapen KGraph); [|left; split; [discriminate | reflexivity] | constructor]. cbn [stated_as]; repeat apply Forall2_cons; try apply Forall2_nil; unfold entry_ok; cbn [fst snd];
      first [by_leaf (fun v => j_text _ _ v initial_ok) | by_leaf (fun v => j_text _ _ v description_ok) | split; [reflexivity|]; right].
    - intros path m y q Hpl Hy Hq. apply graph_place in Hpl. destruct Hpl as [-> E]. apply (cpp_blame [s_ "cpp"] y); [econstructor; eauto | exact Hq].
    - intros path m y q Hpl Hy Hq. apply graph_place in Hpl. destruct Hpl as [-> E]. apply (go_blame [s_ "go"] y); [econstructor; eauto | exact Hq].
    - intros path m y q Hpl Hy Hq. apply graph_place in Hpl. destruct Hpl as [-> E]. apply (py_blame [s_ "py"] y); [econstructor; eauto | exact Hq].
    - intros path m y q Hpl Hy Hq. assert (Hpl' := Hpl). apply graph_place in Hpl'. destruct Hpl' as [-> E]. apply array_blame_iff in Hq.
      destruct Hq as [[Hno ->] | (l & j & x & q' & -> & Hx & Hq & ->)].
      + eapply (wrong_member v KGraph [] m "classes" (fun v => exists cs, v = JArr cs)); [exact Hpl | cbn; tauto | exact Hy | intros (cs & ->); now apply (Hno cs)].
      + apply (class_blame [s_ "classes"; dec_nat j] x); [econstructor; eauto | exact Hq].
    - intros path m y q Hpl Hy Hq. assert (Hpl' := Hpl). apply graph_place in Hpl'. destruct Hpl' as [-> E]. apply array_blame_iff in Hq.
      destruct Hq as [[Hno ->] | (l & j & x & q' & -> & Hx & Hq & ->)].
      + eapply (wrong_member v KGraph [] m "embeds" (fun v => exists es, v = JArr es)); [exact Hpl | cbn; tauto | exact Hy | intros (cs & ->); now apply (Hno cs)].
      + apply (embed_blame [s_ "embeds"; dec_nat j] x); [econstructor; eauto | exact Hq].
    - intros path m y q Hpl. apply (properties_blame KGraph); [exact Hpl | cbn; tauto].
  Qed.

  (** ** What is misshapen is blamed *)

  Local Ltac find_entry := cbn; tauto.
  Lemma place_blame k path x : place k path x -> forall p, In p (jblame (schema_of_kind k) x) -> In (path ++ p) (jblame GRAPH v).
  Proof.
    induction 1 as [|l x E H|l x E H|l x E H|l cs i x E H H'|l cs i x E H H'|k path c ps n p Hpl IH Hk Hps Hp]; intros q Hq; cbn [schema_of_kind] in Hq;
      [exact Hq | ..]; try (unfold GRAPH; rewrite object_blame_iff by exact wf; right; exists l; split; [exact E|]; left).
    - exists (s_ "cpp"), CPP, x, q. repeat split; auto. find_entry.
    - exists (s_ "go"), GO, x, q. repeat split; auto. find_entry.
    - exists (s_ "py"), PY, x, q. repeat split; auto. find_entry.
    - exists (s_ "classes"), (SArray CLASS), (JArr cs), (dec_nat i :: q). repeat split; auto; [find_entry|]. apply array_blame_iff. right. exists cs, i, x, q. auto.
    - exists (s_ "embeds"), (SArray EMBED), (JArr cs), (dec_nat i :: q). repeat split; auto; [find_entry|]. apply array_blame_iff. right. exists cs, i, x, q. auto.
    - rewrite <- app_assoc. apply IH. cbn [app].
      assert (Hw := place_wf _ _ _ Hpl). assert (Hwps := proj2 (wf_obj _ Hw) _ _ Hps).
      assert (Hin : In (n :: q) (jblame PROPERTIES (JObj ps))).
      { unfold PROPERTIES. rewrite object_blame_iff by exact Hwps. right. exists ps. split; [reflexivity|]. right. right. exists n, p. split; [exact Hp|].
        split; [intros []|]. right. exists PROPERTY, q. auto. }
      cbn in Hk. destruct Hk as [<-|[<-|[<-|[]]]]; cbn [schema_of_kind]; unfold GRAPH, CLASS, EMBED; rewrite object_blame_iff by exact Hw; right; exists c;
        (split; [reflexivity|]); left; exists (s_ "properties"), PROPERTIES, (JObj ps), (n :: q); (split; [find_entry | auto]).
  Qed.

  Lemma misshapen_blame path : misshapen path -> In path (jblame GRAPH v).
  Proof.
    intros H. destruct H as [k path x Hpl Hno|k path m key Hpl Hk Hno|k path m key Hpl Hkp Hk Hno|k path m key P x Hpl Hin Hx HP].
    - rewrite <- (app_nil_r path). apply (place_blame _ _ _ Hpl). assert (Hw := place_wf _ _ _ Hpl).
      destruct k; cbn [schema_of_kind]; unfold GRAPH, CPP, GO, PY, CLASS, EMBED, PROPERTY; rewrite object_blame_iff by exact Hw; left; auto.
    - rewrite <- (app_nil_r path). apply (place_blame _ _ _ Hpl). assert (Hw := place_wf _ _ _ Hpl).
      destruct k; cbn [schema_of_kind]; unfold GRAPH, CPP, GO, PY, CLASS, EMBED, PROPERTY; rewrite object_blame_iff by exact Hw; right; exists m;
        (split; [reflexivity|]); right; left; exists (s_ key); (split; [|auto]); apply (in_map s_) in Hk; exact Hk.
    - rewrite <- (app_nil_r path). apply (place_blame _ _ _ Hpl). assert (Hw := place_wf _ _ _ Hpl). destruct (keys_value _ _ Hk) as (y & Hy).
      destruct k; try congruence; cbn [schema_of_kind]; unfold GRAPH, CPP, GO, PY, CLASS, EMBED; rewrite object_blame_iff by exact Hw; right; exists m;
        (split; [reflexivity|]); right; right; exists key, y; (split; [exact Hy|]); (split; [exact Hno|]); left; auto.
    - apply (place_blame _ _ _ Hpl). assert (Hw := place_wf _ _ _ Hpl).
      assert (Hleaf : forall s, leaf s -> (forall x, jvalid s x = true <-> P x) -> In [] (jblame s x)).
      { intros s Hl Hs. apply leaf_blame_iff; auto. split; [reflexivity|]. destruct (jvalid s x) eqn:E; [|reflexivity]. apply Hs in E. contradiction. }
      assert (Hobj : (forall l, x <> JObj l) -> In [] (jblame PROPERTIES x)).
      { intros Hno. unfold PROPERTIES. rewrite object_blame_iff by exact (proj2 (wf_obj _ Hw) _ _ Hx). left. auto. }
      assert (Harr : forall s, (forall l, x <> JArr l) -> In [] (jblame (SArray s) x)).
      { intros s Hno. apply array_blame_iff. left. auto. }
      assert (Hput : forall s, In (s_ key, s) (match schema_of_kind k with SObject ps _ _ => ps | _ => [] end) -> In [] (jblame s x) ->
        In [s_ key] (jblame (schema_of_kind k) (JObj m))).
      { intros s Hs Hb. destruct k; cbn [schema_of_kind] in *; unfold GRAPH, CPP, GO, PY, CLASS, EMBED, PROPERTY in *;
          rewrite object_blame_iff by exact Hw; right; exists m; (split; [reflexivity|]); left; exists (s_ key), s, x, []; auto. }
      Local Ltac give Hput s := apply (Hput s); [cbn; tauto|].
      destruct k; cbn [stated_as In] in Hin; repeat destruct Hin as [Hin|Hin]; try contradiction; injection Hin as <- <-;
        try (contradiction (HP I));
        first [ give Hput PROPERTIES; apply Hobj; intros l' ->; apply HP; eauto
              | give Hput (SArray CLASS); apply Harr; intros l' ->; apply HP; eauto
              | give Hput (SArray EMBED); apply Harr; intros l' ->; apply HP; eauto
              | give Hput any_string; apply Hleaf; [exact I | exact j_string]
              | give Hput SBoolean; apply Hleaf; [exact I | exact j_boolean]
              | give Hput (SString graph_name_re); apply Hleaf; [exact I | exact (fun v => j_text _ _ v initial_ok)]
              | give Hput (SString initial_upper); apply Hleaf; [exact I | exact (fun v => j_text _ _ v initial_ok)]
              | give Hput (SString description_re); apply Hleaf; [exact I | exact (fun v => j_text _ _ v description_ok)]
              | give Hput (SString class_name_re); apply Hleaf; [exact I | exact (fun v => j_text _ _ v class_name_ok)]
              | give Hput (SString namespace_re); apply Hleaf; [exact I | exact (fun v => j_text _ _ v namespace_ok)]
              | give Hput (SString indention_re); apply Hleaf; [exact I | exact (fun v => j_text _ _ v indention_ok)]
              | give Hput (SString package_re); apply Hleaf; [exact I | exact (fun v => j_text _ _ v package_ok)]
              | give Hput (SString module_re); apply Hleaf; [exact I | exact (fun v => j_text _ _ v module_ok)]
              | give Hput (SString type_re); apply Hleaf; [exact I | exact (fun v => j_text _ _ v type_re_ok)]
              | match goal with |- context [one_of ?vs] => idtac | H : context [one_of ?vs] |- _ => give Hput (SEnum (map s_ vs)); apply Hleaf; [exact I | exact (j_enum vs)] end ].
  Qed.

  Theorem blamed_iff path : In path (jblame GRAPH v) <-> misshapen path.
  Proof. split; [apply graph_blame | apply misshapen_blame]. Qed.
End Shape.
