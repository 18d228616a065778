(** C08: when the generated Python parser does not raise. *)
From Verif Require Import Base M_Naming M_Errors M_Dec M_Schema M_PyGen S_Conform S_PyGen S_PySer
  P_PyBase P_PyUnknown P_PyClean P_PyGraph.
From Coq Require Import String List Arith NArith ZArith Bool Lia.
Import ListNotations.

(** ** Templates without braces *)

Lemma format_scan_plain s t : (forall c, In c s -> c <> 123%N /\ c <> 125%N) ->
  forall auto manual, format_scan (s ++ t) None auto manual = format_scan t None auto manual.
Proof.
  induction s as [|c s IH]; intros Hs auto manual; [reflexivity|].
  cbn [app format_scan]. destruct (Hs c (or_introl eq_refl)) as [H1 H2].
  apply N.eqb_neq in H1. apply N.eqb_neq in H2. rewrite H1, H2.
  apply IH. intros d Hd. apply Hs. right. exact Hd.
Qed.

Lemma format_match_plain p : (forall c, In c p -> c <> 123%N /\ c <> 125%N) -> format_match p = None.
Proof.
  intros Hp. unfold format_match. rewrite format_scan_plain.
  - rewrite format_scan_plain by exact Hp. reflexivity.
  - intros c Hc. simpl in Hc. intuition (subst; discriminate).
Qed.

Lemma format_strptime_plain p :
  (forall c, In c p -> c <> 123%N /\ c <> 125%N) -> format_strptime p = None.
Proof.
  intros Hp. unfold format_strptime. rewrite format_scan_plain.
  - rewrite format_scan_plain by exact Hp. reflexivity.
  - intros c Hc. simpl in Hc. intuition (subst; discriminate).
Qed.

(** ** Computations which do not raise *)

Definition safe {A} (m : M A) : Prop := forall es, exists r, m es = Ok r.

Lemma safe_ret {A} (a : A) : safe (ret a).
Proof. intros es. eexists. reflexivity. Qed.
Lemma safe_report {A} ref m (a : A) : safe (report ref m a).
Proof. intros es. eexists. reflexivity. Qed.
Lemma safe_bind {A B} (m : M A) (f : A -> M B) : safe m -> (forall a, safe (f a)) -> safe (mbind m f).
Proof.
  intros Hm Hf es. unfold mbind. destruct (Hm es) as [[a es'] ->]. apply Hf.
Qed.
Lemma safe_full {A} (f g : M A) : safe f -> safe g -> safe (fun es => if py_full es then f es else g es).
Proof. intros Hf Hg es. destruct (py_full es); auto. Qed.
Create HintDb safe.
#[export] Hint Resolve safe_ret safe_report safe_bind : safe.

Section Py.
  Variable X : ext.
  Variable S : py_settings.
  Variable G : graph.
  Hypothesis Hres : resolved G.
  Hypothesis Hmsg : schema_messages_ok G.

  Lemma safe_check_bounds b v n assign ref : safe assign -> safe (check_bounds b v n assign ref).
  Proof.
    intros H. unfold check_bounds. destruct (b_min b), (b_max b); auto.
    - apply safe_bind; [destruct (above _ _ _); auto with safe|].
      intros _. destruct (below _ _ _); auto with safe.
    - destruct (above _ _ _); auto with safe.
    - destruct (below _ _ _); auto with safe.
  Qed.

  Lemma safe_to_float z : float_of_Z z <> None -> safe (to_float z).
  Proof. unfold to_float. destruct (float_of_Z z); [auto with safe|congruence]. Qed.

  Section Regs.
    Variable R : registries.
    Hypothesis HR : forall n c, find_class G n = Some c -> lookup (attr (c_plural c)) R <> None.

    Definition safe_parser (p : parser) : Prop :=
      forall t ref, ty_resolved G t -> messages_ok t -> safe (p t ref).

    Lemma safe_parse_items ps t ref : ty_resolved G t -> messages_ok t -> Forall safe_parser ps ->
      forall i target, safe (parse_items ps t ref i target).
    Proof.
      intros H1 H2 HF. induction HF as [|p ps Hp _ IH]; intros i target; cbn [parse_items]; auto with safe.
      apply safe_bind; [apply Hp; assumption|]. intros item.
      apply (safe_full (ret _)); auto with safe.
    Qed.

    Lemma safe_parse_entries ps t ref : ty_resolved G t -> messages_ok t ->
      Forall (fun kp => safe_parser (snd kp)) ps ->
      forall target, safe (parse_entries X ps t ref target).
    Proof.
      intros H1 H2 HF. induction HF as [|[k p] ps Hp _ IH]; intros target; cbn [parse_entries]; auto with safe.
      apply safe_bind; [apply Hp; assumption|]. intros item.
      apply (safe_full (ret _)); auto with safe.
    Qed.

    Lemma safe_parse_properties ps o ref :
      (forall p, In p ps -> ty_resolved G (p_type p) /\ messages_ok (p_type p)) ->
      (forall k v p, lookup k o = Some (v, p) -> safe_parser p) ->
      forall attrs, safe (parse_properties ps o ref attrs).
    Proof.
      intros Hps Ho. induction ps as [|p ps IH]; intros attrs; cbn [parse_properties]; auto with safe.
      apply safe_bind.
      - unfold parse_property.
        destruct (Hps p (or_introl eq_refl)) as [H1 H2].
        destruct (lookup (p_json p) o) as [[[] q]|] eqn:E;
          try (destruct (p_optional p); auto with safe);
          (apply safe_bind; [apply (Ho _ _ _ E); assumption|auto with safe]).
      - intros attrs'. apply (safe_full (ret _)); auto with safe.
        apply IH. intros q Hq. apply Hps. right. exact Hq.
    Qed.

    Lemma safe_composite_from ps v o ref attrs : In ps (composites G) ->
      (forall k v p, lookup k o = Some (v, p) -> safe_parser p) ->
      safe (composite_from ps v o ref attrs).
    Proof.
      intros Hi Ho. unfold composite_from. destruct v; auto with safe.
      apply safe_bind; [|intros []; auto with safe].
      apply safe_parse_properties; [|exact Ho]. intros p Hp. split; [eapply Hres|eapply Hmsg]; eassumption.
    Qed.

    Lemma lookup_parsers (l : list (str * jval)) :
      Forall (fun kv => safe_parser (parse_value X S G R (snd kv))) l ->
      forall k v p, lookup k (map (fun kv => (fst kv, (snd kv, parse_value X S G R (snd kv)))) l)
                    = Some (v, p) -> safe_parser p.
    Proof.
      induction 1 as [|[k' w] l Hw _ IH]; intros k v p; simpl; [discriminate|].
      destruct (str_eqb k k'); [intros [= <- <-]; exact Hw|apply IH].
    Qed.

    Lemma safe_parse_value v : floatable v -> safe_parser (parse_value X S G R v).
    Proof.
      assert (Hpat : forall p s x ref, match p with Some q => format_match q = None | None => True end ->
                safe (check_pattern X p s x ref)).
      { intros [q|] s x ref H; unfold check_pattern; [|auto with safe].
        destruct (x_re_match X q s); [auto with safe|]. rewrite H. cbn [report_fmt]. auto with safe. }
      assert (Hdt : forall w f s ref, format_strptime f = None -> safe (parse_dt X w f (JStr s) ref)).
      { intros w f s ref H. unfold parse_dt. destruct (x_strptime X f s); [auto with safe|].
        rewrite H. cbn [report_fmt]. auto with safe. }
      induction v as [|b|z|f|s|l IH|l IH] using jval_ind'; intros Hfl t ref H1 H2.
      all: destruct t; cbn [parse_value ty_resolved messages_ok] in *;
        unfold parse_boolean, parse_integer, parse_float, parse_string, parse_path, parse_time_zone,
          parse_duration, parse_reference; auto with safe.
      all: try (apply safe_check_bounds; solve [auto with safe]).
      all: try (apply Hdt; exact H2).
      all: try (unfold parse_dt; solve [auto with safe]).
      all: try (destruct (find_embed G name) as [e|] eqn:Ee; [|congruence];
                apply safe_bind; [|auto with safe];
                apply safe_composite_from; [eapply embed_composite; exact Ee|];
                try (intros ? ? ? E; discriminate E)).
      - apply safe_check_bounds. apply safe_to_float. destruct b; vm_compute; discriminate.
      - apply safe_check_bounds. apply safe_to_float. inversion Hfl; assumption.
      - destruct (pytz S); [destruct (x_tz X s)|]; auto with safe.
      - destruct (x_dur_from X s); auto with safe.
      - destruct (find_class G name) as [c|] eqn:Ec; [|congruence].
        specialize (HR name c Ec). destruct (lookup _ R) as [r|]; [|congruence].
        destruct (lookup s r); auto with safe.
      - unfold parse_array. destruct (match minimum_size with Some _ => _ | None => _ end); auto with safe.
        destruct (match maximum_size with Some _ => _ | None => _ end); auto with safe.
        apply safe_bind; [|auto with safe]. apply safe_parse_items; auto.
        inversion Hfl as [| | | | |? Hl|]; subst.
        rewrite Forall_forall in IH |- *. intros p Hp. apply in_map_iff in Hp as (v & <- & Hv).
        apply IH; auto. apply Hl. exact Hv.
      - apply safe_bind; [|auto with safe]. apply safe_parse_entries; auto.
        inversion Hfl as [| | | | | |? Hl]; subst.
        rewrite Forall_forall in IH |- *. intros p Hp. apply in_map_iff in Hp as ([k v] & <- & Hv).
        apply (IH (k, v) Hv). exact (Hl k v Hv).
      - apply lookup_parsers. inversion Hfl as [| | | | | |? Hl]; subst.
        rewrite Forall_forall in IH |- *. intros [k v] Hv. apply (IH (k, v) Hv). exact (Hl k v Hv).
    Qed.

    Lemma safe_members v : floatable v ->
      forall k w p, lookup k (members_of X S G R v) = Some (w, p) -> safe_parser p.
    Proof.
      intros Hfl. destruct v; try (intros ? ? ? E; discriminate E).
      apply lookup_parsers. inversion Hfl as [| | | | | |? Hl]; subst.
      rewrite Forall_forall. intros [k v] Hv. apply safe_parse_value. exact (Hl k v Hv).
    Qed.

    Lemma set_attrs_length a attrs heap : length (set_attrs a attrs heap) = length heap.
    Proof.
      unfold set_attrs. destruct (nth_error heap a) as [i|] eqn:E; [|reflexivity].
      assert (a < length heap) by (apply nth_error_Some; congruence).
      rewrite app_length, firstn_length. cbn [length]. rewrite skipn_length. lia.
    Qed.

    Lemma parse_instances_safe c reg ref l : In c (g_classes G) ->
      (forall id v, In (id, v) l -> floatable v) ->
      forall heap,
      (forall id v, In (id, v) l -> exists a, lookup id reg = Some a /\ a < length heap) ->
      forall es, exists r es', parse_instances X S G c R reg ref l heap es = Ok (r, es') /\
        (forall heap', r = Some heap' -> length heap' = length heap).
    Proof.
      intros Hc. induction l as [|[id v] l IH]; intros Hfl heap Hreg es.
      - exists (Some heap), es. split; [reflexivity|]. congruence.
      - cbn [parse_instances]. destruct (Hreg id v (or_introl eq_refl)) as (a & E & Ha).
        unfold addr in *. rewrite E. destruct (nth_error heap a) as [i|] eqn:Ei;
          [|apply nth_error_None in Ei; lia].
        unfold mbind.
        destruct (safe_composite_from (c_props c) v (members_of X S G R v)
                    (slash (slash ref (registry_key (c_plural c))) (x_repr X id)) (i_attrs i)
                    (class_composite G c Hc)
                    (safe_members v (Hfl id v (or_introl eq_refl))) es) as [[attrs es1] E1].
        rewrite E1. destruct (py_full es1); [exists None, es1; split; [reflexivity|discriminate]|].
        destruct (IH (fun i w Hi => Hfl i w (or_intror Hi)) (set_attrs a attrs heap)) with (es := es1)
          as (r & es' & Er & Hr).
        + intros id' v' Hi. destruct (Hreg id' v' (or_intror Hi)) as (a' & E' & Ha').
          exists a'. rewrite set_attrs_length. auto.
        + exists r, es'. split; [exact Er|]. intros heap' Hh. rewrite (Hr heap' Hh).
          apply set_attrs_length.
    Qed.
  End Regs.

  Lemma allocate_safe c ref ids : forall reg heap, safe (allocate X c ref ids reg heap).
  Proof.
    induction ids as [|id ids IH]; intros reg heap; cbn [allocate]; auto with safe.
    destruct (c_id_pattern c) as [p|]; [|intros es; apply IH].
    destruct (x_re_match X p id); [intros es; apply IH|].
    intros es. cbv beta zeta. destruct (py_full _); [eexists; reflexivity|apply IH].
  Qed.

  Lemma preallocate_safe cs o ref : forall R heap, safe (preallocate X cs o ref R heap).
  Proof.
    induction cs as [|c cs IH]; intros R heap; cbn [preallocate]; auto with safe.
    apply safe_bind.
    - destruct (lookup _ o) as [[[] p]|]; auto with safe.
      apply safe_bind; [apply allocate_safe|]. intros []. auto with safe.
    - intros [R' heap']. apply (safe_full (ret _)); auto with safe.
  Qed.

  Lemma parse_registries_safe R l ref cs :
    (forall n c, find_class G n = Some c -> lookup (attr (c_plural c)) R <> None) ->
    (forall c, In c cs -> In c (g_classes G)) ->
    (forall c, In c cs -> lookup (py_key c) l = None \/ exists m, lookup (py_key c) l = Some (JObj m)) ->
    (forall k v, In (k, v) l -> floatable v) ->
    forall n heap, regs_at l R cs n -> n + length (concat (map (objs l) cs)) <= length heap ->
    safe (parse_registries X S G cs (members_of X S G R (JObj l)) ref R heap).
  Proof.
    intros HR Hin Hok Hfl. induction cs as [|c cs IH]; intros n heap Hat Hlen; cbn [parse_registries]; auto with safe.
    specialize (IH (fun d H => Hin d (or_intror H)) (fun d H => Hok d (or_intror H))).
    destruct Hat as [Hat1 Hat2]. cbn [map concat] in Hlen. rewrite app_length in Hlen.
    rewrite lookup_members. fold (py_key c).
    destruct (Hok c (or_introl eq_refl)) as [E|[m E]]; rewrite E.
    - eapply IH; [exact Hat2|]. unfold objs in Hlen |- *. rewrite E in *. simpl in *. lia.
    - assert (Eo : objs l c = m) by (unfold objs; rewrite E; reflexivity). rewrite Eo in *.
      rewrite Hat1. intros es. unfold mbind.
      destruct (parse_instances_safe R HR c (reg_at n (keys m)) ref m (Hin c (or_introl eq_refl)))
        with (heap := heap) (es := es) as (r & es' & Er & Hr).
      + intros id v Hv. apply lookup_In in E. apply Hfl in E.
        inversion E as [| | | | | |? Hl]; subst. eapply Hl. exact Hv.
      + intros id v Hv. destruct (lookup_key_Some id (reg_at n (keys m))) as [a Ea].
        { rewrite keys_reg_at. apply (in_map fst) in Hv. exact Hv. }
        exists a. split; [exact Ea|]. apply lookup_reg_at in Ea as [H1 H2].
        assert (a - n < length (keys m)) by (apply nth_error_Some; congruence).
        unfold keys in H. rewrite map_length in H. lia.
      + unfold addr in *. rewrite Er. destruct r as [heap'|]; [|eexists; reflexivity].
        eapply IH; [exact Hat2|]. rewrite (Hr heap' eq_refl). lia.
  Qed.

  Hypothesis Hregs : registries_distinct G.

  Lemma graph_from_safe v ref es : json_wf v -> floatable v -> no_null_registry G v ->
    (0 < py_cap es)%Z -> (Z.of_nat (length (py_values es)) <= py_cap es)%Z ->
    exists r, graph_from X S G v ref es = Ok r.
  Proof.
    intros Hwf Hfl Hnn Hcap Hlen. unfold graph_from.
    destruct (py_full es) eqn:Ef; [eexists; reflexivity|].
    assert (Ro : room es) by (unfold room; unfold py_full in Ef; apply Z.eqb_neq in Ef; lia).
    destruct v as [| | | | | |l]; try (eexists; reflexivity).
    unfold mbind at 1.
    destruct (preallocate_safe (g_classes G) (members_of X S G [] (JObj l)) ref (empty_registries G) [] es)
      as [[r es1] E1].
    rewrite E1. destruct r as [[R heap]|]; [|eexists; reflexivity].
    assert (Hk : grown es es1) by (eapply keeps_preallocate; exact E1).
    assert (Hfls : forall k v, In (k, v) l -> floatable v) by (inversion Hfl; assumption).
    assert (Hprops : forall R, (forall n c, find_class G n = Some c -> lookup (attr (c_plural c)) R <> None) ->
      forall attrs, safe (parse_properties (g_props G) (members_of X S G R (JObj l)) ref attrs)).
    { intros R' HR' attrs. apply safe_parse_properties.
      - intros p Hp. split; [eapply Hres|eapply Hmsg]; eauto; apply graph_composite.
      - intros k w p E. eapply safe_members; [exact HR'|exact Hfl|exact E]. }
    assert (EG : g_classes G = [] \/ match g_classes G with [] => false | _ => true end = true)
      by (destruct (g_classes G); auto).
    destruct EG as [EG|EG].
    - rewrite EG. cbn [parse_registries andb]. unfold mbind, ret. cbv beta iota zeta.
      destruct (Hprops R) with (attrs := placeholder (g_props G)) (es := es1) as [[[early attrs] es2] E2].
      { intros n c Hf. unfold find_class in Hf. rewrite EG in Hf. discriminate. }
      rewrite E2. destruct early; [eexists; reflexivity|].
      destruct (py_empty es2); eexists; reflexivity.
    - rewrite EG. clear EG. destruct (py_empty es1) eqn:Ee; cbn [andb negb]; [|eexists; reflexivity].
      assert (es1 = es).
      { unfold py_empty in Ee. apply Nat.eqb_eq in Ee. destruct Hk as [Hc1 [k Hk]].
        rewrite Hk, app_length in Ee. destruct es, es1; simpl in *. subst. f_equal.
        destruct py_values; [|simpl in Ee; lia]. destruct k; [reflexivity|simpl in Ee; lia]. }
      subst es1.
      assert (Hpre := preallocate_clean X S G [] l ref _ _ _ es _ Ro E1).
      rewrite (preallocate_yields X S G [] l ref (g_classes G) (fun k m => json_wf_obj l k m Hwf) Hpre
                 (empty_registries G) [] es Ro) in E1.
      injection E1 as <- <-. simpl app in *.
      destruct Hregs as (Hnames & Hattrs & Hkeys).
      remember (regs_fold l (g_classes G) 0 (empty_registries G)) as R eqn:ER.
      assert (Hat : regs_at l R (g_classes G) 0)
        by (subst R; apply regs_fold_at; [exact Hattrs|exact (empty_registries_lookup G)]).
      clear ER.
      assert (HR : forall n c, find_class G n = Some c -> lookup (attr (c_plural c)) R <> None).
      { intros n c Hf. apply find_class_In in Hf as [Hi _].
        destruct (regs_at_lookup l R _ 0 c Hat Hi) as [k Ek]. congruence. }
      unfold mbind.
      destruct (parse_registries_safe R l ref (g_classes G) HR (fun c H => H)) with
        (n := 0) (heap := concat (map (fun c => map (ph c) (keys (objs l c))) (g_classes G)))
        (es := es) as [[r es2] E2].
      + intros c Hi. destruct (Hpre c Hi) as [[E|(m & E & _)]|E]; eauto.
        exfalso. exact (Hnn l c eq_refl Hi E).
      + exact Hfls.
      + exact Hat.
      + simpl. clear. induction (g_classes G) as [|c cs IH]; [reflexivity|].
        cbn [map concat]. rewrite !app_length, map_length. unfold keys at 1. rewrite map_length. lia.
      + rewrite E2. destruct r as [heap'|]; [|eexists; reflexivity].
        destruct (Hprops R HR (placeholder (g_props G)) es2) as [[[early attrs] es3] E3].
        rewrite E3. destruct early; [eexists; reflexivity|].
        destruct (py_empty es3); eexists; reflexivity.
  Qed.
End Py.
