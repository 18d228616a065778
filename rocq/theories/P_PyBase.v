(** The error container only grows and keeps its capacity while the generated
    Python parser runs; the consequence for the result (C02). *)
From Verif Require Import Base M_Naming M_Errors M_Dec M_Schema M_PyGen.
From Coq Require Import String List Arith NArith ZArith Bool Lia.
Import ListNotations.

Definition grown (es es' : errs) : Prop :=
  py_cap es' = py_cap es /\ exists l, py_values es' = py_values es ++ l.

Lemma grown_refl es : grown es es.
Proof. split; [reflexivity|]. exists []. rewrite app_nil_r. reflexivity. Qed.

Lemma grown_trans a b c : grown a b -> grown b c -> grown a c.
Proof.
  intros [H1 [l1 H2]] [H3 [l2 H4]]. split; [congruence|].
  exists (l1 ++ l2). rewrite H4, H2, app_assoc. reflexivity.
Qed.

Lemma grown_add ref m es : grown es (add ref m es).
Proof.
  unfold add, py_add. destruct (_ <? _)%Z; [|apply grown_refl].
  split; [reflexivity|]. eexists. reflexivity.
Qed.

Definition keeps {A} (m : M A) : Prop :=
  forall es a es', m es = Ok (a, es') -> grown es es'.

Lemma keeps_ret {A} (a : A) : keeps (ret a).
Proof. intros es b es' H. injection H as <- <-. apply grown_refl. Qed.

Lemma keeps_fail {A} e : keeps (@fail A e).
Proof. intros es b es' H. discriminate. Qed.

Lemma keeps_report {A} ref m (a : A) : keeps (report ref m a).
Proof. intros es b es' H. injection H as <- <-. apply grown_add. Qed.

Lemma keeps_report_fmt {A} r ref m (a : A) : keeps (report_fmt r ref m a).
Proof. unfold report_fmt. destruct r; [apply keeps_fail|apply keeps_report]. Qed.

Lemma keeps_bind {A B} (m : M A) (f : A -> M B) :
  keeps m -> (forall a, keeps (f a)) -> keeps (mbind m f).
Proof.
  intros Hm Hf es b es' H. unfold mbind in H.
  destruct (m es) as [[a es1]|e] eqn:E; [|discriminate].
  eapply grown_trans; [eapply Hm; exact E|eapply Hf; exact H].
Qed.

Lemma keeps_full {A} (a : A) (m : M A) :
  keeps m -> keeps (fun es => if py_full es then Ok (a, es) else m es).
Proof.
  intros Hm es b es' H. destruct (py_full es).
  - injection H as <- <-. apply grown_refl.
  - eapply Hm. exact H.
Qed.

#[global] Hint Resolve keeps_ret keeps_fail keeps_report keeps_report_fmt keeps_bind keeps_full : keeps.

Section Py.
  Variable X : ext.
  Variable S : py_settings.
  Variable G : graph.

  Lemma keeps_check_bounds b v n assign ref :
    keeps assign -> keeps (check_bounds b v n assign ref).
  Proof.
    intros H. unfold check_bounds.
    destruct (b_min b), (b_max b); auto with keeps.
    - apply keeps_bind.
      + destruct (above _ _ _); auto with keeps.
      + intros _. destruct (below _ _ _); auto with keeps.
    - destruct (above _ _ _); auto with keeps.
    - destruct (below _ _ _); auto with keeps.
  Qed.

  Lemma keeps_check_pattern p s x ref : keeps (check_pattern X p s x ref).
  Proof.
    unfold check_pattern. destruct p; auto with keeps.
    destruct (x_re_match _ _ _); auto with keeps.
  Qed.

  Lemma keeps_to_float z : keeps (to_float z).
  Proof. unfold to_float. destruct (float_of_Z z); auto with keeps. Qed.

  Definition parser_keeps (p : parser) : Prop := forall t ref, keeps (p t ref).

  Lemma keeps_parse_items ps t ref : Forall parser_keeps ps ->
    forall i target, keeps (parse_items ps t ref i target).
  Proof.
    induction 1 as [|p ps Hp _ IH]; intros i target; simpl; [apply keeps_ret|].
    apply keeps_bind; [apply Hp|]. intros item. apply keeps_full. apply IH.
  Qed.

  Lemma keeps_parse_entries ps t ref : Forall (fun kp => parser_keeps (snd kp)) ps ->
    forall target, keeps (parse_entries X ps t ref target).
  Proof.
    induction 1 as [|[k p] ps Hp _ IH]; intros target; simpl; [apply keeps_ret|].
    apply keeps_bind; [apply Hp|]. intros item. apply keeps_full. apply IH.
  Qed.

  Definition members_keep (o : members) : Prop := Forall (fun kv => parser_keeps (snd (snd kv))) o.

  Lemma members_lookup (P : parser -> Prop) (o : members) k v p :
    Forall (fun kv => P (snd (snd kv))) o -> lookup k o = Some (v, p) -> P p.
  Proof.
    intros H E. apply lookup_In in E. rewrite Forall_forall in H. apply (H _ E).
  Qed.

  Lemma keeps_parse_property p o ref attrs :
    members_keep o -> keeps (parse_property p o ref attrs).
  Proof.
    intros H. unfold parse_property.
    assert (H0 : keeps (if p_optional p then ret attrs
                        else report ref (MMissingProperty (p_json p)) attrs)).
    { destruct (p_optional p); auto with keeps. }
    destruct (lookup (p_json p) o) as [[v q]|] eqn:E; [|exact H0].
    pose proof (members_lookup _ _ _ _ _ H E) as Hq.
    destruct v; auto; apply keeps_bind; try apply Hq; auto with keeps.
  Qed.

  Lemma keeps_parse_properties ps o ref : members_keep o ->
    forall attrs, keeps (parse_properties ps o ref attrs).
  Proof.
    intros H. induction ps as [|p ps IH]; intros attrs; simpl; [apply keeps_ret|].
    apply keeps_bind; [apply keeps_parse_property; exact H|].
    intros attrs'. apply keeps_full. apply IH.
  Qed.

  Lemma keeps_composite_from ps v o ref attrs :
    members_keep o -> keeps (composite_from ps v o ref attrs).
  Proof.
    intros H. unfold composite_from. destruct v; auto with keeps.
    apply keeps_bind; [apply keeps_parse_properties; exact H|].
    intros [? ?]. auto with keeps.
  Qed.

  Lemma keeps_parse_value R v : parser_keeps (parse_value X S G R v).
  Proof.
    induction v as [| | | | |l IH|l IH] using jval_ind'; intros t ref; destruct t;
      cbn -[float_of_Z]; unfold parse_dt, parse_array, parse_reference;
      repeat match goal with
             | |- keeps (match find_embed ?g ?n with _ => _ end) => destruct (find_embed g n)
             | |- keeps (match find_class ?g ?n with _ => _ end) => destruct (find_class g n)
             | |- keeps (match lookup ?a ?b with _ => _ end) => destruct (lookup a b)
             | |- keeps (match x_strptime ?x ?a ?b with _ => _ end) => destruct (x_strptime x a b)
             | |- keeps (match x_tz ?x ?b with _ => _ end) => destruct (x_tz x b)
             | |- keeps (match x_dur_from ?x ?b with _ => _ end) => destruct (x_dur_from x b)
             | |- keeps (if ?b then _ else _) => destruct b
             end;
      auto using keeps_check_bounds, keeps_check_pattern, keeps_to_float with keeps.
    - apply keeps_bind; auto with keeps.
      apply keeps_parse_items. clear -IH. induction IH; simpl; constructor; auto.
    - apply keeps_bind; auto with keeps.
      apply keeps_parse_entries. clear -IH. induction IH; simpl; constructor; auto.
    - apply keeps_bind; auto with keeps.
      apply (keeps_composite_from _ (JObj l)).
      clear -IH. unfold members_keep. induction IH; simpl; constructor; auto.
  Qed.

  Lemma members_of_keep R v : members_keep (members_of X S G R v).
  Proof.
    unfold members_keep, members_of. destruct v; try constructor.
    induction l; simpl; constructor; auto. apply keeps_parse_value.
  Qed.

  Lemma keeps_allocate c ref ids : forall reg heap, keeps (allocate X c ref ids reg heap).
  Proof.
    induction ids as [|id ids IH]; intros reg heap; simpl; [apply keeps_ret|].
    assert (Hs : keeps (fun es => allocate X c ref ids (upsert id (length heap) reg)
                     (heap ++ [Instance (c_name c) id (placeholder (c_props c))]) es)).
    { intros es a es' H. eapply IH. exact H. }
    destruct (c_id_pattern c) as [p|]; [|exact Hs].
    destruct (x_re_match X p id); [exact Hs|].
    intros es a es' H.
    set (es1 := add _ _ es) in *.
    apply grown_trans with es1; [apply grown_add|].
    destruct (py_full es1); [injection H as <- <-; apply grown_refl|].
    eapply Hs. exact H.
  Qed.

  Lemma keeps_preallocate cs o ref : forall R heap, keeps (preallocate X cs o ref R heap).
  Proof.
    induction cs as [|c cs IH]; intros R heap; simpl; [apply keeps_ret|].
    apply keeps_bind.
    - destruct (lookup _ o) as [[[] ?]|]; auto with keeps.
      apply keeps_bind; [apply keeps_allocate|]. intros [? ?]. auto with keeps.
    - intros [R' heap']. apply keeps_full. apply IH.
  Qed.

  Lemma keeps_parse_instances c R reg ref l : forall heap,
    keeps (parse_instances X S G c R reg ref l heap).
  Proof.
    induction l as [|[id v] l IH]; intros heap; simpl; [apply keeps_ret|].
    destruct (lookup id reg) as [a|]; auto with keeps.
    destruct (nth_error heap a) as [i|]; auto with keeps.
    apply keeps_bind; [apply keeps_composite_from, members_of_keep|].
    intros attrs. apply keeps_full. apply IH.
  Qed.

  Lemma keeps_parse_registries cs o ref R : forall heap,
    keeps (parse_registries X S G cs o ref R heap).
  Proof.
    induction cs as [|c cs IH]; intros heap; simpl; [apply keeps_ret|].
    destruct (lookup _ o) as [[v p]|]; auto.
    destruct v; auto with keeps.
    destruct (lookup _ R) as [reg|]; auto with keeps.
    apply keeps_bind; [apply keeps_parse_instances|].
    intros [heap'|]; auto with keeps.
  Qed.

  Lemma keeps_graph_from v ref : keeps (graph_from X S G v ref).
  Proof.
    unfold graph_from. apply keeps_full.
    destruct v; try (intros es a es' H; injection H as <- <-; apply grown_add).
    apply keeps_bind; [apply keeps_preallocate|].
    intros [[R heap]|]; auto with keeps.
    intros es a es' H.
    destruct (_ && _); [injection H as <- <-; apply grown_refl|].
    revert H. apply keeps_bind; [apply keeps_parse_registries|].
    clear. intros [heap'|]; auto with keeps.
    apply keeps_bind; [apply keeps_parse_properties, members_of_keep|].
    intros [[] attrs]; auto with keeps.
    intros es a es' H. destruct (py_empty es); injection H as <- <-; apply grown_refl.
  Qed.

  (** ** Why a graph is not returned *)

  Lemma full_pos (es : errs) : (0 < py_cap es)%Z -> py_full es = true -> py_values es <> [].
  Proof.
    unfold py_full. rewrite Z.eqb_eq. intros H1 H2 E. rewrite E in H2. simpl in H2. lia.
  Qed.

  Lemma parse_properties_early ps o ref : forall attrs es attrs' es',
    parse_properties ps o ref attrs es = Ok ((true, attrs'), es') -> py_full es' = true.
  Proof.
    induction ps as [|p ps IH]; intros attrs es attrs' es' H; simpl in H; [discriminate|].
    unfold mbind in H. destruct (parse_property _ _ _ _ es) as [[a1 es1]|]; [|discriminate].
    destruct (py_full es1) eqn:F; [injection H as <- <-; exact F|eauto].
  Qed.

  Lemma preallocate_early cs o ref : forall R heap es es',
    preallocate X cs o ref R heap es = Ok (None, es') -> py_full es' = true.
  Proof.
    induction cs as [|c cs IH]; intros R heap es es' H; simpl in H; [discriminate|].
    unfold mbind at 1 in H.
    match type of H with match ?x with _ => _ end = _ => destruct x as [[[R' h'] es1]|] end;
      [|discriminate].
    destruct (py_full es1) eqn:F; [injection H as <-; exact F|eauto].
  Qed.

  Lemma parse_instances_early c R reg ref l : forall heap es es',
    parse_instances X S G c R reg ref l heap es = Ok (None, es') -> py_full es' = true.
  Proof.
    induction l as [|[id v] l IH]; intros heap es es' H; simpl in H; [discriminate|].
    destruct (lookup id reg) as [a|]; [|discriminate].
    destruct (nth_error heap a) as [i|]; [|discriminate].
    unfold mbind in H. destruct (composite_from _ _ _ _ _ es) as [[a1 es1]|]; [|discriminate].
    destruct (py_full es1) eqn:F; [injection H as <-; exact F|eauto].
  Qed.

  Lemma parse_registries_early cs o ref R : forall heap es es',
    parse_registries X S G cs o ref R heap es = Ok (None, es') -> py_full es' = true.
  Proof.
    induction cs as [|c cs IH]; intros heap es es' H; simpl in H; [discriminate|].
    destruct (lookup _ o) as [[v p]|]; [|eauto].
    destruct v; try discriminate.
    destruct (lookup _ R) as [reg|]; [|discriminate].
    unfold mbind in H. destruct (parse_instances _ _ _ _ _ _ _ _ _ es) as [[[h|] es1]|] eqn:E;
      try discriminate; [eauto|].
    injection H as <-. eapply parse_instances_early. exact E.
  Qed.

  Lemma graph_from_outcome v ref es r es' :
    (0 < py_cap es)%Z -> py_values es = [] ->
    graph_from X S G v ref es = Ok (r, es') ->
    (r = None <-> py_values es' <> []).
  Proof.
    intros Hcap Hfresh H.
    destruct (keeps_graph_from v ref es r es' H) as [Hc _].
    assert (Hf : py_full es' = true -> py_values es' <> []).
    { apply full_pos. lia. }
    unfold graph_from in H.
    destruct (py_full es) eqn:F.
    { exfalso. exact (full_pos es Hcap F Hfresh). }
    assert (Hadd : forall m, py_values (add ref m es) <> []).
    { intros m. unfold add, py_add. rewrite Hfresh. simpl.
      destruct (Z.ltb_spec 0 (py_cap es)); [discriminate|lia]. }
    destruct v; try (injection H as <- <-; split; intros; [apply Hadd|reflexivity]).
    unfold mbind in H.
    destruct (preallocate _ _ _ _ _ _ es) as [[[[R heap]|] es1]|] eqn:E1; try discriminate.
    2:{ injection H as <- <-. apply preallocate_early in E1. tauto. }
    destruct (_ && negb (py_empty es1)) eqn:E2.
    { injection H as <- <-. apply andb_true_iff in E2 as [_ E2].
      apply negb_true_iff in E2. unfold py_empty in E2. apply Nat.eqb_neq in E2.
      split; [|tauto]. intros _ E. rewrite E in E2. simpl in E2. lia. }
    destruct (parse_registries _ _ _ _ _ _ _ _ es1) as [[[heap'|] es2]|] eqn:E3; try discriminate.
    2:{ injection H as <- <-. apply parse_registries_early in E3. tauto. }
    destruct (parse_properties _ _ _ _ es2) as [[[[] attrs] es3]|] eqn:E4; try discriminate.
    { injection H as <- <-. apply parse_properties_early in E4. tauto. }
    unfold py_empty in H. destruct (length (py_values es3) =? 0) eqn:E5.
    - injection H as <- <-. apply Nat.eqb_eq in E5. apply length_zero_iff_nil in E5.
      split; [discriminate|congruence].
    - injection H as <- <-. apply Nat.eqb_neq in E5.
      split; [|reflexivity]. intros _ E. rewrite E in E5. simpl in E5. lia.
  Qed.
End Py.
