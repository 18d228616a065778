(** The whole graph: the generated C++ parser reports no error exactly for
    conforming graphs, and what it returns then. *)
From Verif Require Import Base M_Naming M_Errors M_Dec M_Schema M_Duration M_Num M_CppTime M_CppGen S_Conform S_Common S_CppGen P_CppTime P_Common P_CppBase P_CppParse.
From Verif Require P_PyClean.
From Coq Require Import String List Arith NArith ZArith Bool Lia Floats.SpecFloat Permutation.
Import ListNotations.


Section Graph.
  Variable X : cext.
  Variable G : graph.
  Variable order : forall A : Type, nat -> str -> list (str * A) -> list (str * A).
  Hypothesis Hord : visits_all order.
  Hypothesis Hbounds : bounds_exact G.
  Hypothesis Hfields : cfields_distinct G.
  Hypothesis Hclasses : cclasses_distinct G.
  Hypothesis Hlower : names_lower G.
  Variable cap : N.
  Hypothesis Hcap : (0 < cap)%N.
  Notation es0 := (empty_errs cap).
  Notation val := (cval (cx_time X)).
  Notation obj := (cobj (cx_time X)).

  Lemma whole_unique v a b : whole v a -> whole v b -> a = b.
  Proof.
    intros [->|(f & -> & H)] [E|(g & E & H')]; try discriminate; [congruence|].
    apply jfloat_inj in E. subst g. eapply float_is_unique; eauto.
  Qed.

  Lemma double_unique v f g : double v f -> double v g -> f = g.
  Proof. intros [->|(z & -> & H)] [E|(z' & E & H')]; congruence. Qed.

  Lemma time_text_unique k f s a b : time_text X k f s a -> time_text X k f s b -> a = b.
  Proof. unfold time_text. destruct (cx_date_h X); [intros [r H] [r' H']|intros (r & Hr & H) (r' & Hr' & H'); apply up_to_nul_c_str in Hr, Hr']; congruence. Qed.

  Lemma zone_text_unique s a b : zone_text X s a -> zone_text X s b -> a = b.
  Proof. unfold zone_text. destruct (cx_date_h X); congruence. Qed.

  Ltac uniq := repeat match goal with
    | H : exists _, _ |- _ => destruct H
    | H : _ /\ _ |- _ => destruct H
    | H : JStr _ = JStr _ |- _ => apply jstr_inj in H; subst
    | H : JBool _ = JBool _ |- _ => injection H as ->
    | H1 : whole ?v ?a, H2 : whole ?v ?b |- _ => pose proof (whole_unique _ _ _ H1 H2); clear H2; subst
    | H1 : double ?v ?a, H2 : double ?v ?b |- _ => pose proof (double_unique _ _ _ H1 H2); clear H2; subst
    | H1 : time_text _ ?k ?f ?s ?a, H2 : time_text _ ?k ?f ?s ?b |- _ =>
        pose proof (time_text_unique _ _ _ _ _ H1 H2); clear H2; subst
    | H1 : zone_text _ ?s ?a, H2 : zone_text _ ?s ?b |- _ => pose proof (zone_text_unique _ _ _ H1 H2); clear H2; subst
    end; subst; try discriminate.

  (** Only texts, numbers and booleans are scalars. *)
  Lemma rep_atom t v x : cpp_scalar_rep X t v x ->
    match v with JNull | JArr _ | JObj _ => False | _ => True end.
  Proof.
    destruct t; simpl; unfold whole, double; intros H;
      repeat match goal with H : exists _, _ |- _ => destruct H | H : _ /\ _ |- _ => destruct H
             | H : _ \/ _ |- _ => destruct H end; subst; try exact I; contradiction.
  Qed.

  Lemma leaf_atom t v : cpp_leaf X t v ->
    match v with JNull | JArr _ | JObj _ => False | _ => True end.
  Proof.
    destruct t; simpl; unfold whole, double; intros H;
      repeat match goal with H : exists _, _ |- _ => destruct H | H : _ /\ _ |- _ => destruct H
             | H : _ \/ _ |- _ => destruct H end; subst; try exact I; contradiction.
  Qed.

  Lemma set_obj_length a (i : obj) heap : a < length heap -> length (cset_obj X a i heap) = length heap.
  Proof.
    clear Hcap. intros H. unfold cset_obj. rewrite app_length. cbn [length]. rewrite firstn_length, skipn_length. lia.
  Qed.

  Lemma set_obj_nth a (i : obj) heap b : a < length heap ->
    nth_error (cset_obj X a i heap) b = if Nat.eqb a b then Some i else nth_error heap b.
  Proof.
    clear Hcap. intros H. unfold cset_obj. destruct (Nat.eqb_spec a b) as [->|N].
    - rewrite nth_error_app2; rewrite firstn_length, Nat.min_l by lia; [|lia].
      rewrite Nat.sub_diag. reflexivity.
    - destruct (Nat.lt_ge_cases b a).
      + rewrite nth_error_app1 by (rewrite firstn_length; lia).
        rewrite <- (firstn_skipn a heap) at 2. rewrite nth_error_app1; [reflexivity|rewrite firstn_length; lia].
      + rewrite nth_error_app2 by (rewrite firstn_length; lia). rewrite firstn_length, Nat.min_l by lia.
        destruct (b - a) as [|k] eqn:E; [lia|]. cbn [nth_error].
        rewrite <- (firstn_skipn (S a) heap) at 2.
        rewrite nth_error_app2 by (rewrite firstn_length; lia). rewrite firstn_length, Nat.min_l by lia.
        f_equal. lia.
  Qed.

  Definition zero_obj (c : cls) (id : str) : obj := CObj (c_name c) id (default_fields X (c_props c)).

  (** ** Pre-allocation *)

  Lemma allocate_spec c ref : forall ids reg heap reg' heap',
    NoDup (keys reg ++ ids) ->
    cpp_allocate X c ref ids reg heap es0 = CDone ((reg', heap'), es0) ->
    (forall id, In id ids -> cmatches X (c_id_pattern c) id) /\
    NoDup (keys reg') /\ keys reg' = keys reg ++ ids /\
    length heap' = length heap + length ids /\
    (forall a, a < length heap -> nth_error heap' a = nth_error heap a) /\
    (forall id a, In (id, a) reg' -> length heap <= a ->
       (forall id a, In (id, a) reg -> a < length heap) -> nth_error heap' a = Some (zero_obj c id)) /\
    (forall id a, In (id, a) reg' -> In (id, a) reg \/ (length heap <= a < length heap')) /\
    (forall id id' a, In (id, a) reg' -> In (id', a) reg' -> length heap <= a -> 
       (forall id a, In (id, a) reg -> a < length heap) -> id = id').
  Proof.
    induction ids as [|id ids IH]; intros reg heap reg' heap' ND H; simpl in H.
    - apply cret_clean in H. injection H as <- <-. rewrite app_nil_r in ND.
      split; [intros ? []|]. split; [exact ND|]. split; [rewrite app_nil_r; reflexivity|].
      split; [simpl; lia|]. split; [auto|]. split; [intros id a H1 Ha Hr; apply Hr in H1; lia|]. split; [auto|].
      intros id id' a H1 H2 Ha Hr. apply Hr in H1. lia.
    - assert (Hid : ~ In id (keys reg)).
      { intros C. apply NoDup_remove_2 in ND. apply ND. apply in_or_app. auto. }
      assert (M : cmatches X (c_id_pattern c) id /\
                  cpp_allocate X c ref ids (upsert id (length heap) reg) (heap ++ [zero_obj c id]) es0 = CDone (reg', heap', es0)).
      { destruct (c_id_pattern c) as [p|] eqn:P; [destruct (cx_match X p id) eqn:M; cbn [negb] in H|].
        - split; [intros q E; congruence|exact H].
        - apply cbind_clean in H as (? & H & _); [eapply creport_clean; [exact Hcap|exact H]|].
          intros. apply ckeeps_full, ckeeps_allocate.
        - split; [intros q E; discriminate|exact H]. }
      destruct M as [M H']. clear H.
      rewrite upsert_fresh in H' by exact Hid.
      apply IH in H' as (A1 & A2 & A3 & A4 & A5 & A6 & A7 & A8).
      2:{ unfold keys in *. rewrite map_app. simpl. rewrite <- app_assoc. exact ND. }
      rewrite app_length in *. cbn [length] in *.
      assert (A3' : keys reg' = keys reg ++ id :: ids).
      { rewrite A3. unfold keys. rewrite map_app, <- app_assoc. reflexivity. }
      split; [intros id' [<-|H']; auto|]. split; [exact A2|]. split; [exact A3'|]. split; [lia|].
      split; [|split; [|split]].
      + intros a Ha. rewrite A5 by lia. apply nth_error_app1. exact Ha.
      + intros id' a H' Ha Hr. destruct (Nat.eq_dec a (length heap)) as [->|N].
        * assert (id' = id) as ->.
          { apply A7 in H' as [Hi|Hi]; [|lia].
            apply in_app_or in Hi as [Hi|[E|[]]]; [apply Hr in Hi; lia|congruence]. }
          rewrite A5 by lia. rewrite nth_error_app2 by lia. rewrite Nat.sub_diag. reflexivity.
        * apply (A6 id' a H'); [lia|].
          intros i b Hb. apply in_app_or in Hb as [Hb|[E|[]]]; [apply Hr in Hb; lia|]. injection E as <- <-. lia.
      + intros id' a H'. apply A7 in H' as [H'|H']; [|right; lia].
        apply in_app_or in H' as [H'|[E|[]]]; [auto|]. injection E as <- <-. right. lia.
      + intros i1 i2 a H1 H2 Ha Hr.
        destruct (Nat.eq_dec a (length heap)) as [->|N].
        * assert (U : forall i, In (i, length heap) reg' -> i = id).
          { intros i Hi. apply A7 in Hi as [Hi|Hi]; [|lia].
            apply in_app_or in Hi as [Hi|[E|[]]]; [apply Hr in Hi; lia|congruence]. }
          rewrite (U _ H1), (U _ H2). reflexivity.
        * apply (A8 i1 i2 a); auto; try lia.
          intros i b Hb. apply in_app_or in Hb as [Hb|[E|[]]]; [apply Hr in Hb; lia|]. injection E as <- <-. lia.
  Qed.

  Lemma allocate_complete c ref : forall ids reg heap,
    (forall id, In id ids -> cmatches X (c_id_pattern c) id) ->
    exists r, cpp_allocate X c ref ids reg heap es0 = CDone (r, es0).
  Proof.
    induction ids as [|id ids IH]; intros reg heap H; simpl; [eexists; reflexivity|].
    assert (M := H id (or_introl eq_refl)).
    assert (Hr : forall id, In id ids -> cmatches X (c_id_pattern c) id) by (intros; apply H; right; auto).
    destruct (c_id_pattern c) as [p|] eqn:P; [rewrite (M _ eq_refl)|]; cbn [negb]; apply IH; exact Hr.
  Qed.

  Record inv (l : list (str * jval)) (dn : list cls) (R : cregistries) (heap : list obj) : Prop := {
    inv_keys : forall f, In f (keys R) -> In f (map (fun c => cfield (c_plural c)) dn);
    inv_reg : forall c, In c dn ->
      (lookup (cpp_cls_key c) l = None /\ cregistry R c = []) \/
      exists m, lookup (cpp_cls_key c) l = Some (JObj m) /\
        forall id, In id (keys m) <-> In id (keys (cregistry R c));
    inv_nodup : forall c, In c dn -> NoDup (keys (cregistry R c));
    inv_obj : forall c id a, In c dn -> In (id, a) (cregistry R c) ->
      cmatches X (c_id_pattern c) id /\ nth_error heap a = Some (zero_obj c id);
    inv_inj : forall c c' id id' a, In c dn -> In c' dn ->
      In (id, a) (cregistry R c) -> In (id', a) (cregistry R c') -> c = c' /\ id = id' }.

  Lemma registry_upsert_eq c r R : cregistry (upsert (cfield (c_plural c)) r R) c = r.
  Proof. unfold cregistry. rewrite lookup_upsert_eq. reflexivity. Qed.
  Lemma registry_upsert_neq c c' r R : cfield (c_plural c) <> cfield (c_plural c') ->
    cregistry (upsert (cfield (c_plural c')) r R) c = cregistry R c.
  Proof. intros H. unfold cregistry. rewrite lookup_upsert_neq by auto. reflexivity. Qed.

  Lemma preallocate_sound l ref : json_wf (JObj l) -> forall cs dn R heap R' heap',
    NoDup (map (fun c => cfield (c_plural c)) (dn ++ cs)) -> inv l dn R heap ->
    cpp_preallocate X order cs l ref R heap es0 = CDone ((R', heap'), es0) ->
    inv l (dn ++ cs) R' heap'.
  Proof.
    intros W. induction cs as [|c cs IH]; intros dn R heap R' heap' ND I H; simpl in H.
    - apply cret_clean in H. injection H as <- <-. rewrite app_nil_r. exact I.
    - apply cbind_clean in H as ([R1 heap1] & H1 & H); [|intros [? ?]; apply ckeeps_preallocate].
      replace (dn ++ c :: cs) with ((dn ++ [c]) ++ cs) by (rewrite <- app_assoc; reflexivity).
      replace (dn ++ c :: cs) with ((dn ++ [c]) ++ cs) in ND by (rewrite <- app_assoc; reflexivity).
      eapply IH; [exact ND| |exact H]. clear H IH.
      assert (Nc : forall c', In c' dn -> cfield (c_plural c') <> cfield (c_plural c)).
      { intros c' Hc' E. rewrite map_app, map_app in ND. simpl in ND. rewrite <- app_assoc in ND.
        apply NoDup_remove_2 in ND. apply ND. rewrite <- E. apply in_or_app. left.
        apply (in_map (fun c => cfield (c_plural c))). exact Hc'. }
      assert (R0 : cregistry R c = []).
      { unfold cregistry. destruct (lookup _ R) eqn:L; [|reflexivity]. exfalso.
        apply lookup_Some_key in L. apply (inv_keys _ _ _ _ I) in L.
        apply in_map_iff in L as (c' & E' & Hc'). exact (Nc c' Hc' E'). }
      fold (cregistry R c) in H1. rewrite R0 in H1.
      destruct (lookup (cpp_key (c_plural c)) l) as [v|] eqn:E.
      + destruct v as [| | | | | |m]; try (eapply creport_clean; [exact Hcap|exact H1]).
        apply cbind_clean in H1 as ([reg heap2] & H1 & H2); [|intros [? ?]; apply ckeeps_ret].
        apply cret_clean in H2. injection H2 as <- <-.
        inversion W as [| | | | | |? Wd Wl]; subst.
        assert (Wm : NoDup (keys m)).
        { apply lookup_In in E. apply Wl in E. inversion E; assumption. }
        pose proof (Permutation_keys _ _ (Hord _ 1 (cslash ref (cpp_key (c_plural c))) m)) as Pm.
        apply allocate_spec in H1 as (A1 & A2 & A3 & A4 & A5 & A6 & A7 & A8).
        2:{ simpl. eapply Permutation_NoDup; [exact Pm|exact Wm]. }
        simpl in A3.
        assert (Hlt : forall c' id a, In c' dn -> In (id, a) (cregistry R c') -> a < length heap).
        { intros c' id a H1 H2. destruct (inv_obj _ _ _ _ I c' id a H1 H2) as [_ Hn].
          apply nth_error_Some. congruence. }
        constructor.
        * intros f Hf. apply keys_upsert_In in Hf as [Hf|Hf]; rewrite map_app, in_app_iff; simpl.
          -- right. left. auto.
          -- left. apply (inv_keys _ _ _ _ I). exact Hf.
        * intros c' Hc'. apply in_app_or in Hc' as [Hc'|[<-|[]]].
          -- rewrite registry_upsert_neq by (apply Nc; exact Hc'). apply (inv_reg _ _ _ _ I). exact Hc'.
          -- right. exists m. split; [exact E|]. intros id. rewrite registry_upsert_eq, A3.
             split; apply Permutation_in; [|symmetry]; exact Pm.
        * intros c' Hc'. apply in_app_or in Hc' as [Hc'|[<-|[]]].
          -- rewrite registry_upsert_neq by (apply Nc; exact Hc'). apply (inv_nodup _ _ _ _ I). exact Hc'.
          -- rewrite registry_upsert_eq. exact A2.
        * intros c' id a Hc' Ha. apply in_app_or in Hc' as [Hc'|[<-|[]]].
          -- rewrite registry_upsert_neq in Ha by (apply Nc; exact Hc').
             destruct (inv_obj _ _ _ _ I c' id a Hc' Ha) as [M Hn]. split; [exact M|].
             rewrite A5; [exact Hn|]. eapply Hlt; eauto.
          -- rewrite registry_upsert_eq in Ha. split.
             ++ apply A1. rewrite <- A3. eapply In_keys. exact Ha.
             ++ apply A6; [exact Ha| |intros ? ? []]. apply A7 in Ha as [[]|Ha]. lia.
        * intros c1 c2 i1 i2 a H1 H2 K1 K2.
          apply in_app_or in H1 as [H1|[<-|[]]]; apply in_app_or in H2 as [H2|[<-|[]]].
          -- rewrite registry_upsert_neq in K1 by (apply Nc; exact H1).
             rewrite registry_upsert_neq in K2 by (apply Nc; exact H2).
             eapply (inv_inj _ _ _ _ I); eauto.
          -- rewrite registry_upsert_neq in K1 by (apply Nc; exact H1). rewrite registry_upsert_eq in K2.
             apply A7 in K2 as [[]|K2]. pose proof (Hlt _ _ _ H1 K1). lia.
          -- rewrite registry_upsert_neq in K2 by (apply Nc; exact H2). rewrite registry_upsert_eq in K1.
             apply A7 in K1 as [[]|K1]. pose proof (Hlt _ _ _ H2 K2). lia.
          -- rewrite registry_upsert_eq in K1, K2. split; [reflexivity|].
             apply (A8 i1 i2 a); auto; [|intros ? ? []].
             apply A7 in K1 as [[]|K1]. lia.
      + apply cret_clean in H1. injection H1 as <- <-.
        constructor.
        * intros f Hf. rewrite map_app, in_app_iff. left. apply (inv_keys _ _ _ _ I). exact Hf.
        * intros c' Hc'. apply in_app_or in Hc' as [Hc'|[<-|[]]]; [apply (inv_reg _ _ _ _ I); exact Hc'|].
          left. auto.
        * intros c' Hc'. apply in_app_or in Hc' as [Hc'|[<-|[]]]; [apply (inv_nodup _ _ _ _ I); exact Hc'|].
          rewrite R0. constructor.
        * intros c' id a Hc' Ha. apply in_app_or in Hc' as [Hc'|[<-|[]]]; [eapply (inv_obj _ _ _ _ I); eauto|].
          rewrite R0 in Ha. destruct Ha.
        * intros c1 c2 i1 i2 a H1 H2 K1 K2.
          apply in_app_or in H1 as [H1|[<-|[]]]; [|rewrite R0 in K1; destruct K1].
          apply in_app_or in H2 as [H2|[<-|[]]]; [|rewrite R0 in K2; destruct K2].
          eapply (inv_inj _ _ _ _ I); eauto.
  Qed.

  Lemma preallocate_complete l ref : forall cs R heap,
    (forall c, In c cs -> lookup (cpp_cls_key c) l = None \/
       exists m, lookup (cpp_cls_key c) l = Some (JObj m) /\
                 forall id, In id (keys m) -> cmatches X (c_id_pattern c) id) ->
    exists r, cpp_preallocate X order cs l ref R heap es0 = CDone (r, es0).
  Proof.
    induction cs as [|c cs IH]; intros R heap H; simpl; [eexists; reflexivity|].
    assert (Hr : forall c, In c cs -> lookup (cpp_cls_key c) l = None \/
       exists m, lookup (cpp_cls_key c) l = Some (JObj m) /\
                 forall id, In id (keys m) -> cmatches X (c_id_pattern c) id) by (intros; apply H; right; auto).
    unfold cbind. destruct (H c (or_introl eq_refl)) as [E|(m & E & Hm)]; unfold cpp_cls_key in E; rewrite E.
    - apply IH. exact Hr.
    - destruct (allocate_complete c ref (keys (order _ 1 (cslash ref (cpp_key (c_plural c))) m))
                  (match lookup (cfield (c_plural c)) R with Some r => r | None => [] end) heap) as [[reg heap'] ->].
      + intros id Hid. apply Hm. eapply Permutation_in; [|exact Hid].
        symmetry. apply Permutation_keys. apply Hord.
      + apply IH. exact Hr.
  Qed.

  (** ** Instances *)

  Section Instances.
    Variable R : cregistries.
    Let known (n id : str) : Prop := exists a, cdesignates G R n id a.

    Lemma composite_sound ps v ref fields : In ps (composites G) -> json_wf v ->
      cpp_composite X ps v (cmembers_of X G order R v) ref (default_fields X ps) es0 = CDone (fields, es0) ->
      exists o, v = JObj o /\ fields_conform G (cpp_leaf X) known ps o /\
                cfields_rep X G (cdesignates G R) ps o fields.
    Proof.
      intros Hps W H. unfold cpp_composite in H. simpl in H.
      destruct v as [| | | | | |o]; try (eapply creport_clean; [exact Hcap|exact H]). exists o. split; [reflexivity|].
      inversion W as [| | | | | |? Wd Wl]; subst.
      simpl in H. eapply fields_sound; eauto.
      - intros k v Hv t r x Bt E. eapply value_sound; eauto.
      - intros. apply ckeeps_value. exact Hord.
    Qed.

    Lemma composite_complete ps o ref fields : In ps (composites G) -> no_null (JObj o) ->
      fields_conform G (cpp_leaf X) known ps o ->
      exists fields', cpp_composite X ps (JObj o) (cmembers_of X G order R (JObj o)) ref fields es0 = CDone (fields', es0).
    Proof.
      intros Hps N H. unfold cpp_composite. simpl. inversion N as [| | | | |? Nl]; subst.
      apply fields_complete; auto.
      - intros k v Hv ->. apply Nl in Hv. inversion Hv.
      - intros k v Hv t r Bt C. eapply value_complete; eauto.
    Qed.

    Lemma instances_sound c (reg : list (str * addr)) ref : In (c_props c) (composites G) ->
      NoDup (keys reg) -> (forall id id' a, In (id, a) reg -> In (id', a) reg -> id = id') ->
      forall l heap heap',
      NoDup (keys l) -> (forall k v, In (k, v) l -> json_wf v) ->
      (forall id a, In id (keys l) -> In (id, a) reg -> nth_error heap a = Some (zero_obj c id)) ->
      cpp_instances X G order c R reg ref l heap es0 = CDone (heap', es0) ->
      length heap' = length heap /\
      (forall a, (forall id, In id (keys l) -> ~ In (id, a) reg) -> nth_error heap' a = nth_error heap a) /\
      (forall id v a, In (id, v) l -> In (id, a) reg ->
         exists o fields, v = JObj o /\ nth_error heap' a = Some (CObj (c_name c) id fields) /\
           fields_conform G (cpp_leaf X) known (c_props c) o /\
           cfields_rep X G (cdesignates G R) (c_props c) o fields).
    Proof.
      intros Hps NR Inj. induction l as [|[id v] l IH]; intros heap heap' ND W Z H; simpl in H.
      - apply cret_clean in H. subst. repeat split; auto. intros ? ? ? [].
      - destruct (lookup id reg) as [a|] eqn:L; [|discriminate H].
        apply lookup_In in L. rewrite (Z id a (or_introl eq_refl) L) in H.
        assert (La : a < length heap).
        { apply nth_error_Some. rewrite (Z id a (or_introl eq_refl) L). discriminate. }
        apply cbind_clean in H as (fields & H1 & H).
        2:{ intros. apply ckeeps_full, ckeeps_instances. exact Hord. }
        apply (cfull_clean _ _ _ _ Hcap) in H. cbn [i_fields i_class i_id zero_obj] in H1, H.
        apply composite_sound in H1 as (o & -> & C & Rp); [|exact Hps|eapply W; left; reflexivity].
        cbv beta iota zeta in H. inversion ND as [|? ? N1 N2]; subst.
        apply IH in H as (A1 & A2 & A3); auto.
        + rewrite set_obj_length in A1 by exact La. split; [exact A1|]. split.
          * intros b Hb. rewrite A2 by (intros id' Hid'; apply Hb; right; exact Hid').
            rewrite set_obj_nth by exact La. destruct (Nat.eqb_spec a b) as [->|]; [|reflexivity].
            exfalso. exact (Hb id (or_introl eq_refl) L).
          * intros id' v' a' [E|Hv] Ha'.
            -- injection E as <- <-. assert (a' = a).
               { apply (In_lookup _ _ _ NR) in L, Ha'. congruence. }
               subst a'. exists o, fields. repeat split; auto.
               ++ rewrite A2; [rewrite set_obj_nth by exact La; rewrite Nat.eqb_refl; reflexivity|].
                  intros id' Hid' C'. rewrite (Inj _ _ _ L C') in N1. auto.
               ++ apply Rp.
               ++ apply Rp.
            -- apply A3; auto.
        + intros k v' Hv. eapply W. right. exact Hv.
        + intros id' b Hid' Hb. rewrite set_obj_nth by exact La.
          destruct (Nat.eqb_spec a b) as [->|]; [|apply (Z id' b); [right; exact Hid'|exact Hb]].
          exfalso. rewrite (Inj _ _ _ L Hb) in N1. auto.
    Qed.

    Lemma instances_complete c (reg : list (str * addr)) ref : In (c_props c) (composites G) ->
      forall l heap,
      (forall k v, In (k, v) l -> exists o, v = JObj o /\ no_null v /\
          fields_conform G (cpp_leaf X) known (c_props c) o) ->
      (forall id, In id (keys l) -> exists a, lookup id reg = Some a /\ a < length heap) ->
      exists heap', cpp_instances X G order c R reg ref l heap es0 = CDone (heap', es0).
    Proof.
      intros Hps. induction l as [|[id v] l IH]; intros heap H Hr; simpl; [eexists; reflexivity|].
      destruct (Hr id (or_introl eq_refl)) as (a & L & La). rewrite L.
      destruct (nth_error heap a) as [i|] eqn:E; [|apply nth_error_None in E; lia].
      destruct (H id v (or_introl eq_refl)) as (o & -> & N & C).
      destruct (composite_complete (c_props c) o (cslash (cslash ref (cpp_key (c_plural c))) id) (i_fields i) Hps N C) as [fs Hfs].
      unfold cbind. rewrite Hfs, (empty_not_full _ Hcap). apply IH.
      - intros k v Hv. apply (H k). right. exact Hv.
      - intros id' Hid'. rewrite set_obj_length by exact La. apply Hr. right. exact Hid'.
    Qed.

    Lemma class_composite c : In c (g_classes G) -> In (c_props c) (composites G).
    Proof. intros H. unfold composites. apply in_or_app. left. apply in_map. exact H. Qed.

    (** The state of the heap when the classes [cs] remain to be parsed. *)
    Lemma registries_sound l ref : json_wf (JObj l) -> forall cs heap r,
      NoDup (map c_name cs) -> incl cs (g_classes G) ->
      (forall c, In c cs -> (lookup (cpp_cls_key c) l = None /\ cregistry R c = []) \/
         exists m, lookup (cpp_cls_key c) l = Some (JObj m) /\
           forall id, In id (keys m) <-> In id (keys (cregistry R c))) ->
      (forall c, In c cs -> NoDup (keys (cregistry R c))) ->
      (forall c id a, In c cs -> In (id, a) (cregistry R c) -> nth_error heap a = Some (zero_obj c id)) ->
      (forall c c' id id' a, In c cs -> In c' cs ->
         In (id, a) (cregistry R c) -> In (id', a) (cregistry R c') -> c = c' /\ id = id') ->
      cpp_registries X G order cs l ref R heap es0 = CDone (r, es0) ->
      exists heap', r = Some heap' /\
        (forall a, (forall c id, In c cs -> ~ In (id, a) (cregistry R c)) -> nth_error heap' a = nth_error heap a) /\
        (forall c m id v a, In c cs -> lookup (cpp_cls_key c) l = Some (JObj m) ->
           In (id, v) m -> In (id, a) (cregistry R c) ->
           exists o fields, v = JObj o /\ nth_error heap' a = Some (CObj (c_name c) id fields) /\
             fields_conform G (cpp_leaf X) known (c_props c) o /\
             cfields_rep X G (cdesignates G R) (c_props c) o fields).
    Proof.
      intros W. induction cs as [|c cs IH]; intros heap r NC Inc Hreg Hnd Z Inj H; simpl in H.
      - apply cret_clean in H. subst. exists heap. repeat split; auto. intros c ? ? ? ? [].
      - apply cbind_clean in H as (heap1 & H1 & H).
        2:{ intros. apply ckeeps_full, ckeeps_registries. exact Hord. }
        apply (cfull_clean _ _ _ _ Hcap) in H. fold (cregistry R c) in H1.
        inversion NC as [|? ? NC1 NC2]; subst.
        assert (Hc : In c (g_classes G)) by (apply Inc; left; reflexivity).
        assert (Dis : forall c' id id' a, In c' cs -> In (id, a) (cregistry R c) -> In (id', a) (cregistry R c') -> False).
        { intros c' id id' a Hc' K1 K2.
          destruct (Inj c c' id id' a (or_introl eq_refl) (or_intror Hc') K1 K2) as [<- _].
          apply NC1. apply in_map. exact Hc'. }
        assert (S : (forall a, (forall id, ~ In (id, a) (cregistry R c)) -> nth_error heap1 a = nth_error heap a) /\
                    (forall m id v a, lookup (cpp_cls_key c) l = Some (JObj m) ->
                       In (id, v) m -> In (id, a) (cregistry R c) ->
                       exists o fields, v = JObj o /\ nth_error heap1 a = Some (CObj (c_name c) id fields) /\
                         fields_conform G (cpp_leaf X) known (c_props c) o /\
                         cfields_rep X G (cdesignates G R) (c_props c) o fields)).
        { destruct (Hreg c (or_introl eq_refl)) as [[E R0]|(m & E & Km)]; unfold cpp_cls_key in *; rewrite E in H1.
          - apply cret_clean in H1. subst. split; [auto|]. intros m id v a E'. congruence.
          - pose proof (Hord _ 2 (cslash ref (cpp_key (c_plural c))) m) as Pm.
            inversion W as [| | | | | |? Wd Wl]; subst.
            assert (Wm := Wl _ _ (lookup_In _ _ _ E)). inversion Wm as [| | | | | |? Wmd Wml]; subst.
            apply instances_sound in H1 as (A1 & A2 & A3).
            + split.
              * intros a Ha. apply A2. intros id _. apply Ha.
              * intros m' id v a E' Hv Ha. rewrite E' in E. injection E as ->.
                apply A3; [|exact Ha]. eapply Permutation_in; [exact Pm|exact Hv].
            + apply class_composite. exact Hc.
            + apply Hnd. left. reflexivity.
            + intros id id' a K1 K2.
              destruct (Inj c c id id' a (or_introl eq_refl) (or_introl eq_refl) K1 K2) as [_ ->]. reflexivity.
            + eapply Permutation_NoDup; [apply Permutation_keys; exact Pm|exact Wmd].
            + intros k v Hv. eapply Wml. eapply Permutation_in; [symmetry; exact Pm|exact Hv].
            + intros id a _ Ha. apply (Z c id a (or_introl eq_refl) Ha). }
        destruct S as [S1 S2].
        apply IH in H as (heap' & -> & A1 & A2); auto.
        + exists heap'. split; [reflexivity|]. split.
          * intros a Ha. rewrite A1 by (intros c' id Hc'; apply Ha; right; exact Hc').
            apply S1. intros id. apply Ha. left. reflexivity.
          * intros c' m id v a [<-|Hc'] E Hv Ha; [|eapply A2; eauto].
            destruct (S2 m id v a E Hv Ha) as (o & fields & -> & Hn & C & Rp).
            exists o, fields. repeat split; try apply Rp; auto.
            rewrite A1; [exact Hn|]. intros c' id' Hc' Ha'. exact (Dis _ _ _ _ Hc' Ha Ha').
        + intros c' Hc'. apply Inc. right. exact Hc'.
        + intros c' Hc'. apply Hreg. right. exact Hc'.
        + intros c' Hc'. apply Hnd. right. exact Hc'.
        + intros c' id a Hc' Ha. rewrite S1; [apply (Z c' id a (or_intror Hc') Ha)|].
          intros id' Ha'. exact (Dis _ _ _ _ Hc' Ha' Ha).
        + intros c1 c2 i1 i2 a H1' H2' K1 K2. apply (Inj c1 c2 i1 i2 a); auto; right; auto.
    Qed.

    Lemma registries_complete l ref : forall cs heap,
      incl cs (g_classes G) ->
      (forall c, In c cs -> (lookup (cpp_cls_key c) l = None) \/
         exists m, lookup (cpp_cls_key c) l = Some (JObj m) /\
           (forall id v, In (id, v) m -> exists o, v = JObj o /\ no_null v /\
              fields_conform G (cpp_leaf X) known (c_props c) o) /\
           (forall id, In id (keys m) -> exists a, lookup id (cregistry R c) = Some a /\ a < length heap)) ->
      exists heap', cpp_registries X G order cs l ref R heap es0 = CDone (Some heap', es0).
    Proof.
      induction cs as [|c cs IH]; intros heap Inc H; simpl; [eexists; reflexivity|].
      unfold cbind. fold (cregistry R c).
      destruct (H c (or_introl eq_refl)) as [E|(m & E & Hm & Ha)]; unfold cpp_cls_key in E; rewrite E.
      - unfold cret. rewrite (empty_not_full _ Hcap). apply IH; [intros c' Hc'; apply Inc; right; exact Hc'|].
        intros c' Hc'. apply H. right. exact Hc'.
      - pose proof (Hord _ 2 (cslash ref (cpp_key (c_plural c))) m) as Pm.
        destruct (instances_complete c (cregistry R c) ref (class_composite _ (Inc c (or_introl eq_refl)))
                    (order _ 2 (cslash ref (cpp_key (c_plural c))) m) heap) as [heap' Hh].
        + intros k v Hv. apply (Hm k). eapply Permutation_in; [symmetry; exact Pm|exact Hv].
        + intros id Hid. apply Ha. eapply Permutation_in; [symmetry; apply Permutation_keys; exact Pm|exact Hid].
        + cbn [iterated]. rewrite Hh, (empty_not_full _ Hcap). apply IH; [intros c' Hc'; apply Inc; right; exact Hc'|].
          assert (Hlen : length heap' = length heap).
          { clear -Hh Hord Hcap. revert heap heap' Hh. generalize (order jval 2 (cslash ref (cpp_key (c_plural c))) m) as l0.
            induction l0 as [|[id v] l0 IH]; intros heap heap' Hh; simpl in Hh.
            - apply cret_clean in Hh. subst. reflexivity.
            - destruct (lookup id (cregistry R c)) as [a|]; [|discriminate Hh].
              destruct (nth_error heap a) as [i|] eqn:E; [|discriminate Hh].
              apply cbind_clean in Hh as (fs & _ & Hh); [|intros; apply ckeeps_full, ckeeps_instances; exact Hord].
              apply (cfull_clean _ _ _ _ Hcap) in Hh. apply IH in Hh. rewrite Hh. apply set_obj_length.
              apply nth_error_Some. congruence. }
          rewrite Hlen. intros c' Hc'. apply H. right. exact Hc'.
    Qed.
  End Instances.

  (** ** The graph *)

  Lemma inv_init l : inv l [] [] [].
  Proof. constructor; simpl; try tauto. Qed.

  Lemma find_class_In n c : find_class G n = Some c -> In c (g_classes G) /\ c_name c = n.
  Proof. intros H. apply find_some in H as [H E]. apply str_eqb_eq in E. auto. Qed.

  Lemma In_find_class c : In c (g_classes G) -> find_class G (c_name c) = Some c.
  Proof.
    intros H. unfold cclasses_distinct in Hclasses. unfold find_class. revert H Hclasses.
    induction (g_classes G) as [|c' cs IH]; intros H ND; [destruct H|]. simpl. inversion ND; subst.
    destruct H as [->|H]; [rewrite str_eqb_refl; reflexivity|].
    destruct (str_eqb (c_name c') (c_name c)) eqn:E; [|apply IH; auto].
    apply str_eqb_eq in E. exfalso. apply H2. rewrite E. apply in_map. exact H.
  Qed.

  Lemma known_listed l R heap : inv l (g_classes G) R heap -> forall n id,
    (exists a, cdesignates G R n id a) <-> listed G cpp_cls_key l n id.
  Proof.
    intros I n id. split.
    - intros (a & c & Ec & La). destruct (find_class_In _ _ Ec) as [Hc _].
      destruct (inv_reg _ _ _ _ I c Hc) as [[E R0]|(m & E & K)]; [rewrite R0 in La; discriminate|].
      exists c, m. split; [exact Ec|]. split; [exact E|]. apply K. eapply lookup_Some_key. exact La.
    - intros (c & m & Ec & E & Hid). destruct (find_class_In _ _ Ec) as [Hc _].
      destruct (inv_reg _ _ _ _ I c Hc) as [[E' R0]|(m' & E' & K)]; [congruence|].
      rewrite E in E'. injection E' as <-. apply K in Hid. apply lookup_key_Some in Hid as [a La].
      exists a, c. auto.
  Qed.

  Lemma fields_conform_mono (P Q : str -> str -> Prop) ps o : (forall n i, P n i -> Q n i) ->
    fields_conform G (cpp_leaf X) P ps o -> fields_conform G (cpp_leaf X) Q ps o.
  Proof.
    intros H F p Hp. destruct (F p Hp) as [?|(v & E & N & C)]; [left; assumption|].
    right. exists v. repeat split; auto. eapply P_PyClean.conforms_mono; [| |exact C]; auto.
  Qed.

  Lemma crep_mono (P Q : str -> str -> addr -> Prop) : (forall n i a, P n i a -> Q n i a) ->
    forall v t x, crep X G P t v x -> crep X G Q t v x.
  Proof.
    intros H. induction v as [| | | | |l IH|l IH] using jval_ind'; intros t x Hr.
    1-5: inversion Hr; subst; first [apply crep_scalar; solve [auto]|apply crep_ref; solve [auto]].
    - inversion Hr as [| ? ? ? ? xs F| | |]; subst; [apply crep_scalar; auto|]. apply crep_array.
      clear Hr. revert xs F. induction l as [|v l IHl]; intros xs F; inversion F; subst; constructor.
      + inversion IH; auto.
      + apply IHl; [inversion IH|]; auto.
    - inversion Hr as [|  |? ? xs N K F| |? e ? fs Ee Kf F]; subst; [apply crep_scalar; auto| |].
      + apply crep_map; auto. intros k v x Hv Hx. rewrite Forall_forall in IH. apply (IH _ Hv). eapply F; eauto.
      + eapply crep_embed; eauto. intros p Hp. destruct (F p Hp) as [?|(v & x & E & L & Nn & Rp)]; [left; assumption|].
        right. exists v, x. repeat split; auto. rewrite Forall_forall in IH.
        apply (IH _ (lookup_In _ _ _ E)). exact Rp.
  Qed.

  Theorem graph_sound v ref r : json_wf v ->
    cpp_graph_from X G order v ref es0 = CDone (r, es0) ->
    exists l g, v = JObj l /\ r = Some g /\ cpp_conforms X G v /\ cpp_graph_rep X G l g.
  Proof.
    intros W H. unfold cpp_graph_from in H. simpl in H.
    destruct v as [| | | | | |l]; try (eapply creport_clean; [exact Hcap|exact H]).
    apply cbind_clean in H as ([R heap] & H1 & H).
    2:{ intros [R0 ?] es a es' E. destruct (_ && _) in E.
        - injection E as <- <-. apply cgrown_refl.
        - revert E. apply ckeeps_bind; [apply ckeeps_registries; exact Hord|].
          intros [?|]; [|apply ckeeps_ret]. apply ckeeps_bind; [|intros; apply ckeeps_ret].
          apply (ckeeps_properties X _ (cmembers_of X G order R0 (JObj l))). apply members_of_keep. exact Hord. }
    destruct (_ && _) eqn:T in H.
    { apply andb_true_iff in T as [_ T]. discriminate. }
    apply preallocate_sound with (dn := []) in H1; [|exact W|exact (proj2 Hfields)|apply inv_init].
    simpl in H1.
    apply cbind_clean in H as (r1 & H2 & H).
    2:{ intros [?|]; [|apply ckeeps_ret]. apply ckeeps_bind; [|intros; apply ckeeps_ret].
        apply (ckeeps_properties X _ (cmembers_of X G order R (JObj l))). apply members_of_keep. exact Hord. }
    apply (registries_sound R l ref W) in H2 as (heap' & -> & _ & A).
    - apply cbind_clean in H as (fields & H & Hr); [|intros; apply ckeeps_ret]. apply cret_clean in Hr. subst.
      inversion W as [| | | | | |? Wd Wl]; subst.
      assert (Hg : In (g_props G) (composites G)).
      { unfold composites. rewrite !in_app_iff. right. right. left. reflexivity. }
      apply (fields_sound X G order Hbounds cap Hcap Hfields Hlower R) in H as (C & Rp).
      + exists l, (CGraph fields R heap'). split; [reflexivity|]. split; [reflexivity|]. split.
        * exists l. split; [reflexivity|]. split.
          -- intros c Hc. destruct (inv_reg _ _ _ _ H1 c Hc) as [[E _]|(m & E & K)]; [left; exact E|].
             right. exists m. split; [exact E|]. intros id v Hv.
             assert (Hid : In id (keys (cregistry R c))) by (apply K; eapply In_keys; exact Hv).
             apply keys_In in Hid as [a Ha].
             destruct (A c m id v a Hc E Hv Ha) as (o & fs & -> & _ & Co & _). split.
             ++ intros p Hp. apply (proj1 (inv_obj _ _ _ _ H1 c id a Hc Ha)). exact Hp.
             ++ exists o. split; [reflexivity|]. eapply fields_conform_mono; [|exact Co].
                intros n i Hk. apply (known_listed l R heap H1). exact Hk.
          -- eapply fields_conform_mono; [|exact C]. intros n i Hk. apply (known_listed l R heap H1). exact Hk.
        * split; [exact Rp|]. intros c Hc. simpl. split; [apply (inv_nodup _ _ _ _ H1 c Hc)|].
          destruct (inv_reg _ _ _ _ H1 c Hc) as [[E R0]|(m & E & K)]; [left; auto|].
          right. exists m. split; [exact E|]. split; [exact K|]. intros id v a Hv Ha.
          destruct (A c m id v a Hc E Hv Ha) as (o & fs & -> & Hn & _ & Rpo).
          exists o, (CObj (c_name c) id fs). auto.
      + exact Hg.
      + intros k v Hv t r x Bt E. eapply value_sound; eauto.
      + intros. apply ckeeps_value. exact Hord.
    - exact Hclasses.
    - intros c Hc. exact Hc.
    - apply (inv_reg _ _ _ _ H1).
    - apply (inv_nodup _ _ _ _ H1).
    - intros c id a Hc Ha. apply (inv_obj _ _ _ _ H1 c id a Hc Ha).
    - intros c c' id id' a Hc Hc'. apply (inv_inj _ _ _ _ H1); auto.
  Qed.

  Theorem graph_complete v ref : json_wf v -> no_null v -> cpp_conforms X G v ->
    exists g, cpp_graph_from X G order v ref es0 = CDone (Some g, es0).
  Proof.
    intros W N (l & -> & HC & HP).
    inversion N as [| | | | |? Nl]; subst.
    destruct (preallocate_complete l ref (g_classes G) [] []) as [[R heap] H1].
    { intros c Hc. destruct (HC c Hc) as [E|(m & E & Hm)]; [left; exact E|]. right. exists m. split; [exact E|].
      intros id Hid. apply keys_In in Hid as [v Hv]. destruct (Hm id v Hv) as [Hp _].
      intros p Ep. exact (Hp p Ep). }
    pose proof H1 as I. apply preallocate_sound with (dn := []) in I; [|exact W|exact (proj2 Hfields)|apply inv_init].
    simpl in I.
    destruct (registries_complete R l ref (g_classes G) heap) as [heap' H2].
    { intros c Hc. exact Hc. }
    { intros c Hc. destruct (HC c Hc) as [E|(m & E & Hm)]; [left; exact E|]. right. exists m. split; [exact E|]. split.
      - intros id v Hv. destruct (Hm id v Hv) as (_ & o & -> & F). exists o. split; [reflexivity|]. split.
        + apply lookup_In in E. apply Nl in E. inversion E as [| | | | |? Nm]; subst. eapply Nm. exact Hv.
        + eapply fields_conform_mono; [|exact F]. intros n i Hk. apply (known_listed l R heap I). exact Hk.
      - intros id Hid. destruct (inv_reg _ _ _ _ I c Hc) as [[E' _]|(m' & E' & K)]; [congruence|].
        rewrite E in E'. injection E' as <-. apply K in Hid. apply lookup_key_Some in Hid as [a La].
        exists a. split; [exact La|]. apply nth_error_Some.
        apply lookup_In in La. destruct (inv_obj _ _ _ _ I c id a Hc La) as [_ Hn]. congruence. }
    assert (Hg : In (g_props G) (composites G)).
    { unfold composites. rewrite !in_app_iff. right. right. left. reflexivity. }
    destruct (fields_complete X G order Hbounds cap Hcap R (g_props G) l ref (default_fields X (g_props G))) as [fs Hfs].
    { exact Hg. }
    { intros k v Hv ->. apply Nl in Hv. inversion Hv. }
    { intros k v Hv t r Bt C. eapply value_complete; eauto. }
    { eapply fields_conform_mono; [|exact HP]. intros n i Hk. apply (known_listed l R heap I). exact Hk. }
    exists (CGraph fs R heap'). unfold cpp_graph_from. simpl. unfold cbind. rewrite H1.
    simpl. rewrite andb_false_r. rewrite H2. rewrite Hfs. reflexivity.
  Qed.

  (** ** What is represented by a conforming value satisfies the schema *)
  Lemma rep_sat (known : str -> str -> Prop) (points : str -> str -> addr -> Prop) (ref_ok : str -> addr -> Prop) :
    (forall n id a, points n id a -> ref_ok n a) ->
    forall v t x, conforms G (cpp_leaf X) known t v -> crep X G points t v x ->
    csat X G (cpp_scalar X) ref_ok (fun _ _ => True) t x.
  Proof.
    intros HR. induction v as [| | | | |l IH|l IH] using jval_ind'; intros t x C Rp.
    1-5: inversion C as [? ? S L| | | |]; subst; inversion Rp as [? ? ? S' Sr| | | |]; subst; try discriminate;
      first [apply csat_ref; eapply HR; eassumption|
      apply csat_scalar; [assumption|];
      destruct t; try discriminate; simpl in L, Sr |- *; uniq; eauto 8].
    - inversion C as [? ? S L|? ? ? ? Hz Hl| | |]; subst.
      { destruct (leaf_atom _ _ L). }
      inversion Rp as [? ? ? S'|? ? ? ? xs F| | |]; subst; [discriminate|].
      apply csat_array.
      + rewrite <- (Forall2_len _ _ _ F). exact Hz.
      + intros x Hx. clear C Rp Hz. revert IH Hl. induction F as [|v y l ys Hy F IHF]; intros IH Hl; [destruct Hx|].
        inversion IH as [|? ? I1 I2]; subst. destruct Hx as [<-|Hx].
        * apply I1; auto. apply Hl. left. reflexivity.
        * apply IHF; auto. intros v' Hv'. apply Hl. right. exact Hv'.
    - inversion C as [? ? S L| |? ? Hl| |? e ? Ee Hf]; subst.
      { destruct (leaf_atom _ _ L). }
      + inversion Rp as [? ? ? S'| |? ? xs N K F| |]; subst; [discriminate|].
        apply csat_map; [exact N|]. intros k x Hx.
        destruct (keys_In k l) as [v Hv]; [apply K; eapply In_keys; exact Hx|].
        rewrite Forall_forall in IH. apply (IH _ Hv); [eapply Hl; exact Hv|eapply F; eauto].
      + inversion Rp as [? ? ? S'| | | |? e' ? fs Ee' Kf F]; subst; [discriminate|].
        rewrite Ee in Ee'. injection Ee' as <-. eapply csat_embed; eauto.
        intros p Hp. destruct (F p Hp) as [(E & L)|(v & x & E & L & Nn & Rpx)].
        * exists CNil. split; [exact L|]. left. split; [reflexivity|].
          destruct (Hf p Hp) as [[O _]|(v & E' & _)]; [exact O|congruence].
        * exists x. split; [exact L|]. right. split; [exact Nn|].
          destruct (Hf p Hp) as [[O [E'|E']]|(v' & E' & _ & Cv)]; [congruence| |].
          -- rewrite E in E'. injection E' as ->. rewrite Forall_forall in IH.
             exfalso. apply lookup_In in E.
             inversion Rpx as [? ? ? S9 Sr| | | |]; subst. exact (rep_atom _ _ _ Sr).
          -- rewrite E in E'. injection E' as <-. rewrite Forall_forall in IH.
             apply (IH _ (lookup_In _ _ _ E)); auto.
  Qed.

  Lemma fields_rep_sat (known : str -> str -> Prop) (points : str -> str -> addr -> Prop) (ref_ok : str -> addr -> Prop) ps l fields :
    (forall n id a, points n id a -> ref_ok n a) ->
    fields_conform G (cpp_leaf X) known ps l -> cfields_rep X G points ps l fields ->
    cfields_sat X G (cpp_scalar X) ref_ok (fun _ _ => True) ps fields.
  Proof.
    intros HR Hf [K F]. split; [exact K|]. intros p Hp. destruct (F p Hp) as [(E & L)|(v & x & E & L & Nn & Rpx)].
    - exists CNil. split; [exact L|]. left. split; [reflexivity|].
      destruct (Hf p Hp) as [[O _]|(v & E' & _)]; [exact O|congruence].
    - exists x. split; [exact L|]. right. split; [exact Nn|].
      destruct (Hf p Hp) as [[O [E'|E']]|(v' & E' & _ & Cv)]; [congruence| |].
      + rewrite E in E'. injection E' as ->. exfalso.
        inversion Rpx as [? ? ? S9 Sr| | | |]; subst. exact (rep_atom _ _ _ Sr).
      + rewrite E in E'. injection E' as <-. eapply rep_sat; eauto.
  Qed.

  Theorem graph_rep_sat l g : cpp_conforms X G (JObj l) -> cpp_graph_rep X G l g ->
    cpp_graph_sat X G (cpp_scalar X) (fun _ _ => True) g.
  Proof.
    intros (l' & E & HC & HP) [Rf Rc]. injection E as <-.
    assert (HR : forall n id a, cdesignates G (cg_registries g) n id a -> cregistered X G g n a).
    { intros n id a (c & Ec & La). destruct (find_class_In _ _ Ec) as [Hc Hn].
      destruct (Rc c Hc) as [_ [[_ R0]|(m & Em & K & Hm)]]; [rewrite R0 in La; discriminate|].
      pose proof (lookup_In _ _ _ La) as Ha.
      destruct (keys_In id m) as [v Hv]; [apply K; eapply In_keys; exact Ha|].
      destruct (Hm id v a Hv Ha) as (o & i & -> & Hi & Hcl & Hid & _).
      exists c, i. repeat split; auto; congruence. }
    split.
    - eapply fields_rep_sat; eauto.
    - intros c Hc. destruct (Rc c Hc) as [ND [[_ R0]|(m & Em & K & Hm)]]; split; try exact ND.
      + rewrite R0. intros ? ? [].
      + intros id a Ha. destruct (keys_In id m) as [v Hv]; [apply K; eapply In_keys; exact Ha|].
        destruct (Hm id v a Hv Ha) as (o & i & -> & Hi & Hcl & Hid & Rpo).
        destruct (HC c Hc) as [E'|(m' & E' & HC')]; [congruence|].
        rewrite Em in E'. injection E' as <-. destruct (HC' id _ Hv) as (Hpat & o' & Eo & Fo). injection Eo as <-.
        split; [exact Hpat|]. exists i. repeat split; auto; eapply fields_rep_sat; eauto.
  Qed.

  (** ** Two graphs represented by the same value are equal *)
  Lemma rep_unique (P Q : str -> str -> addr -> Prop) (same : addr -> addr -> Prop) :
    (forall n id a b, P n id a -> Q n id b -> same a b) ->
    forall v t x y, json_wf v -> crep X G P t v x -> crep X G Q t v y -> cveq X same x y.
  Proof.
    intros HS. induction v as [| | | | |l IH|l IH] using jval_ind'; intros t x y W R1 R2.
    1-5: inversion R1 as [? ? ? S1 L1| | | |]; subst; inversion R2 as [? ? ? S2 L2| | | |]; subst; try discriminate;
      first [apply cveq_ref; eapply HS; eassumption|
       destruct t; try discriminate; simpl in L1, L2;
       uniq; try (match goal with H1 : ?a = CppOk _, H2 : ?a = CppOk _ |- _ => rewrite H1 in H2; injection H2 as <- end);
       apply cveq_atom; exact I].
    - inversion R1 as [? ? ? S1 L1|? ? ? ? xs F1| | |]; subst.
      { destruct (rep_atom _ _ _ L1). }
      inversion R2 as [? ? ? S2 L2|? ? ? ? ys F2| | |]; subst; [discriminate|].
      inversion W as [| | | | |? Wl|]; subst. apply cveq_list. clear R1 R2 W. revert ys F2 IH Wl.
      induction F1 as [|v a l xs Ha F1 IHF]; intros ys F2 IH Wl; inversion F2 as [|? b ? zs Hb F2']; subst; constructor.
      + inversion IH; subst. eapply H1; eauto. apply Wl. left. reflexivity.
      + inversion IH; subst. apply IHF; auto. intros. apply Wl. right. auto.
    - inversion R1 as [? ? ? S1 L1| |? ? xs N1 K1 F1| |? e ? fs E1 K1 F1]; subst.
      { destruct (rep_atom _ _ _ L1). }
      + inversion R2 as [? ? ? S2 L2| |? ? ys N2 K2 F2| |]; subst; [discriminate|].
        inversion W as [| | | | | |? Wd Wl]; subst.
        apply cveq_map; auto.
        * intros k. rewrite <- K1, <- K2. reflexivity.
        * intros k a b Ha Hb. destruct (keys_In k l) as [v Hv]; [apply K1; eapply In_keys; exact Ha|].
          rewrite Forall_forall in IH. eapply (IH _ Hv); [eapply Wl; exact Hv|eapply F1; eauto|eapply F2; eauto].
      + inversion R2 as [? ? ? S2 L2| | | |? e' ? gs E2 K2 F2]; subst; [discriminate|].
        rewrite E1 in E2. injection E2 as <-. inversion W as [| | | | | |? Wd Wl]; subst.
        apply cveq_struct; [congruence|]. intros k a b La Lb.
        assert (Hk : In k (map p_name (e_props e))) by (rewrite <- K1; eapply lookup_Some_key; exact La).
        apply in_map_iff in Hk as (p & <- & Hp).
        destruct (F1 p Hp) as [(Ea & L1)|(v & x & Ea & L1 & _ & Rx)];
        destruct (F2 p Hp) as [(Eb & L2)|(w & z & Eb & L2 & _ & Ry)]; try congruence.
        * rewrite L1 in La. rewrite L2 in Lb. injection La as <-. injection Lb as <-. apply cveq_atom. exact I.
        * rewrite Ea in Eb. injection Eb as <-. rewrite L1 in La. rewrite L2 in Lb.
          injection La as <-. injection Lb as <-. rewrite Forall_forall in IH.
          pose proof (lookup_In _ _ _ Ea) as Hv. eapply (IH _ Hv); eauto.
  Qed.

  Lemma fields_unique (P Q : str -> str -> addr -> Prop) (same : addr -> addr -> Prop) ps o xs ys :
    (forall n id a b, P n id a -> Q n id b -> same a b) -> json_wf (JObj o) ->
    cfields_rep X G P ps o xs -> cfields_rep X G Q ps o ys -> cfields_eq X same xs ys.
  Proof.
    intros HS W [K1 F1] [K2 F2]. split; [congruence|]. intros k a b La Lb.
    assert (Hk : In k (map p_name ps)) by (rewrite <- K1; eapply lookup_Some_key; exact La).
    apply in_map_iff in Hk as (p & <- & Hp). inversion W as [| | | | | |? Wd Wl]; subst.
    destruct (F1 p Hp) as [(Ea & L1)|(v & x & Ea & L1 & _ & Rx)];
    destruct (F2 p Hp) as [(Eb & L2)|(w & z & Eb & L2 & _ & Ry)]; try congruence.
    - rewrite L1 in La. rewrite L2 in Lb. injection La as <-. injection Lb as <-. apply cveq_atom. exact I.
    - rewrite Ea in Eb. injection Eb as <-. rewrite L1 in La. rewrite L2 in Lb.
      injection La as <-. injection Lb as <-. eapply rep_unique; [exact HS| |exact Rx|exact Ry]. eapply Wl. eapply lookup_In. exact Ea.
  Qed.

  Theorem graph_rep_unique l g1 g2 : json_wf (JObj l) ->
    cpp_graph_rep X G l g1 -> cpp_graph_rep X G l g2 -> cpp_graph_equal X G g1 g2.
  Proof.
    intros W [F1 C1] [F2 C2].
    set (D1 := cdesignates G (cg_registries g1)) in *. set (D2 := cdesignates G (cg_registries g2)) in *.
    exists (fun a b => exists n id, D1 n id a /\ D2 n id b).
    assert (U : forall g, (forall c, In c (g_classes G) ->
        NoDup (keys (cregistry (cg_registries g) c)) /\
        ((lookup (cpp_cls_key c) l = None /\ cregistry (cg_registries g) c = []) \/
        exists m, lookup (cpp_cls_key c) l = Some (JObj m) /\
         (forall id, In id (keys m) <-> In id (keys (cregistry (cg_registries g) c))) /\
         forall id v a, In (id, v) m -> In (id, a) (cregistry (cg_registries g) c) ->
           exists o i, v = JObj o /\ nth_error (cg_heap g) a = Some i /\
             i_class i = c_name c /\ i_id i = id /\
             cfields_rep X G (cdesignates G (cg_registries g)) (c_props c) o (i_fields i))) ->
      forall n id n' id' a, cdesignates G (cg_registries g) n id a -> cdesignates G (cg_registries g) n' id' a ->
        n = n' /\ id = id').
    { intros g HC n id n' id' a (c & Ec & La) (c' & Ec' & La').
      destruct (find_class_In _ _ Ec) as [Hc Hn]. destruct (find_class_In _ _ Ec') as [Hc' Hn'].
      assert (B : forall c id, In c (g_classes G) -> lookup id (cregistry (cg_registries g) c) = Some a ->
                  exists i, nth_error (cg_heap g) a = Some i /\ i_class i = c_name c /\ i_id i = id).
      { clear -HC. intros c id Hc La. destruct (HC c Hc) as [_ [[_ R0]|(m & E & K & Hm)]]; [rewrite R0 in La; discriminate|].
        pose proof (lookup_In _ _ _ La) as Ha.
        destruct (keys_In id m) as [v Hv]; [apply K; eapply In_keys; exact Ha|].
        destruct (Hm id v a Hv Ha) as (o & i & -> & Hi & Hcl & Hid & _). eauto. }
      destruct (B c id Hc La) as (i & Hi & Hcl & Hid). destruct (B c' id' Hc' La') as (i' & Hi' & Hcl' & Hid').
      split; congruence. }
    split; [|split; [|split]].
    - intros a a' b (n & id & H1 & H2) (n' & id' & H1' & H2').
      destruct (U g2 C2 _ _ _ _ _ H2 H2') as [<- <-].
      destruct H1 as (c & Ec & La). destruct H1' as (c' & Ec' & La'). congruence.
    - intros a b b' (n & id & H1 & H2) (n' & id' & H1' & H2').
      destruct (U g1 C1 _ _ _ _ _ H1 H1') as [<- <-].
      destruct H2 as (c & Ec & La). destruct H2' as (c' & Ec' & La'). congruence.
    - eapply fields_unique; eauto.
    - intros c Hc. destruct (C1 c Hc) as [N1 K1]. destruct (C2 c Hc) as [N2 K2].
      destruct K1 as [[E1 R1]|(m & E1 & K1 & M1)]; destruct K2 as [[E2 R2]|(m' & E2 & K2 & M2)]; try congruence.
      + rewrite R1, R2. split; [tauto|]. intros ? ? ? [].
      + rewrite E1 in E2. injection E2 as <-. split; [intros id; rewrite <- K1, <- K2; reflexivity|].
        intros id a b Ha Hb. destruct (keys_In id m) as [v Hv]; [apply K1; eapply In_keys; exact Ha|].
        destruct (M1 id v a Hv Ha) as (o & i & -> & Hi & Hcl & Hid & Rp).
        destruct (M2 id _ b Hv Hb) as (o' & j & Eo & Hj & Hcl' & Hid' & Rp'). injection Eo as <-. split.
        * exists (c_name c), id. split; exists c; split; try (apply In_find_class; exact Hc); apply In_lookup; auto.
        * assert (Wo : json_wf (JObj o)).
          { apply lookup_In in E1. inversion W as [| | | | | |? Wd Wl]; subst. apply Wl in E1.
            inversion E1 as [| | | | | |? Wd' Wl']; subst. eapply Wl'. exact Hv. }
          exists i, j. split; [exact Hi|]. split; [exact Hj|]. split; [congruence|]. split; [congruence|].
          eapply fields_unique; [|exact Wo|exact Rp|exact Rp']. intros n x y H1 H2. eauto.
  Qed.
End Graph.
