(** C03, C04, C05 for whole graphs. *)
From Verif Require Import Base M_Naming M_Errors M_Dec M_Schema M_PyGen S_Conform S_PyGen P_PyBase
  P_PyUnknown P_PyClean.
From Coq Require Import String List Arith NArith ZArith Bool Lia.
Import ListNotations.

Section Py.
  Variable X : ext.
  Variable S : py_settings.
  Variable G : graph.
  Hypothesis Hdistinct : attrs_distinct G.
  Hypothesis Hregs : registries_distinct G.

  (** The members of the registry of a class. *)
  Definition objs (l : list (str * jval)) (c : cls) : list (str * jval) :=
    match lookup (py_key c) l with Some (JObj m) => m | _ => [] end.

  Definition ph (c : cls) (id : str) : instance := Instance (c_name c) id (placeholder (c_props c)).

  Definition reg_at (n : nat) (ids : list str) : list (str * addr) := combine ids (seq n (length ids)).

  (** The registries of the classes [cs] hold consecutive addresses from [n]. *)
  Fixpoint regs_at (l : list (str * jval)) (R : registries) (cs : list cls) (n : nat) : Prop :=
    match cs with
    | [] => True
    | c :: cs' =>
        lookup (attr (c_plural c)) R = Some (reg_at n (keys (objs l c))) /\
        regs_at l R cs' (n + length (objs l c))
    end.

  Lemma keys_reg_at n ids : keys (reg_at n ids) = ids.
  Proof.
    unfold reg_at. revert n. induction ids as [|id ids IH]; intros n; simpl; [reflexivity|].
    f_equal. apply IH.
  Qed.

  Lemma lookup_reg_at n ids id a : lookup id (reg_at n ids) = Some a ->
    n <= a /\ nth_error ids (a - n) = Some id.
  Proof.
    unfold reg_at. revert n. induction ids as [|i ids IH]; intros n; simpl; [discriminate|].
    destruct (str_eqb id i) eqn:E.
    - apply str_eqb_eq in E. subst. intros [= <-]. rewrite Nat.sub_diag. auto.
    - intros H. apply IH in H as [H1 H2]. split; [lia|].
      replace (a - n) with (Datatypes.S (a - Datatypes.S n)) by lia. exact H2.
  Qed.

  Lemma allocate_yields c ref ids : (forall id, In id ids -> matches X (c_id_pattern c) id) ->
    forall reg heap, NoDup (keys reg ++ ids) ->
    yields (allocate X c ref ids reg heap)
           (reg ++ reg_at (length heap) ids, heap ++ map (ph c) ids).
  Proof.
    intros Hm. induction ids as [|id ids IH]; intros reg heap Hnd.
    - simpl. rewrite !app_nil_r. apply yields_ret.
    - assert (Hs : yields (fun es => allocate X c ref ids (upsert id (length heap) reg)
                     (heap ++ [ph c id]) es)
                   (reg ++ reg_at (length heap) (id :: ids), heap ++ map (ph c) (id :: ids))).
      { intros es Ro. rewrite upsert_fresh.
        - rewrite IH; [| |  |exact Ro].
          + rewrite app_length. simpl. unfold reg_at. simpl.
            rewrite Nat.add_1_r, <- !app_assoc. reflexivity.
          + intros i Hi. apply Hm. right. exact Hi.
          + unfold keys. rewrite map_app, <- app_assoc. exact Hnd.
        - intros HI. apply NoDup_remove_2 in Hnd. apply Hnd. apply in_or_app. auto. }
      cbn [allocate].
      destruct (c_id_pattern c) as [p|] eqn:Ep; [|exact Hs].
      rewrite (Hm id (or_introl eq_refl) p eq_refl). exact Hs.
  Qed.

  Lemma allocate_clean c ref ids : forall reg heap,
    clean (allocate X c ref ids reg heap) (forall id, In id ids -> matches X (c_id_pattern c) id).
  Proof.
    induction ids as [|id ids IH]; intros reg heap es a Ro H; [intros ? []|].
    cbn [allocate] in H.
    destruct (c_id_pattern c) as [p|] eqn:Ep.
    - destruct (x_re_match X p id) eqn:Em.
      + intros i [<-|Hi]; [intros q [= <-]; exact Em|]. revert i Hi. eapply IH; eassumption.
      + exfalso. set (r := slash _ _) in *. set (m := MIdMismatch p id) in *.
        assert (Hg : grown (add r m es) es).
        { destruct (py_full (add r m es)).
          - injection H as _ H. rewrite H. apply grown_refl.
          - eapply keeps_allocate. exact H. }
        apply (add_not_clean r m es Ro). apply grown_antisym; [exact Hg|apply grown_add].
    - intros i _ q Hq. discriminate.
  Qed.

  (** A registry which the pre-allocation accepts and the second pass can iterate. *)
  Definition registry_ok (l : list (str * jval)) (c : cls) : Prop :=
    lookup (py_key c) l = None \/
    exists m, lookup (py_key c) l = Some (JObj m) /\
              forall id, In id (keys m) -> matches X (c_id_pattern c) id.

  (** The registries after the pre-allocation. *)
  Fixpoint regs_fold (l : list (str * jval)) (cs : list cls) (n : nat) (R : registries) : registries :=
    match cs with
    | [] => R
    | c :: cs' =>
        regs_fold l cs' (n + length (objs l c))
          match lookup (py_key c) l with
          | Some (JObj m) => upsert (attr (c_plural c)) (reg_at n (keys m)) R
          | _ => R
          end
    end.

  Lemma regs_fold_other l cs k : ~ In k (map (fun c => attr (c_plural c)) cs) ->
    forall n R, lookup k (regs_fold l cs n R) = lookup k R.
  Proof.
    induction cs as [|c cs IH]; intros Hk n R; [reflexivity|].
    cbn [regs_fold]. rewrite IH by (intros H; apply Hk; right; exact H).
    destruct (lookup (py_key c) l) as [[]|]; try reflexivity.
    apply lookup_upsert_neq. intros E. apply Hk. left. exact E.
  Qed.

  Lemma regs_fold_at l cs : NoDup (map (fun c => attr (c_plural c)) cs) ->
    forall n R, (forall c, In c cs -> lookup (attr (c_plural c)) R = Some []) ->
    regs_at l (regs_fold l cs n R) cs n.
  Proof.
    induction cs as [|c cs IH]; intros Hnd n R HR; [exact I|].
    inversion Hnd as [|? ? Hni Hnd']; subst. cbn [regs_at regs_fold]. split.
    - rewrite regs_fold_other by exact Hni. unfold objs.
      destruct (lookup (py_key c) l) as [[]|]; try (apply HR; left; reflexivity).
      apply lookup_upsert_eq.
    - apply IH; [exact Hnd'|]. intros d Hd.
      destruct (lookup (py_key c) l) as [[]|]; try (apply HR; right; exact Hd).
      rewrite lookup_upsert_neq; [apply HR; right; exact Hd|].
      intros E. apply Hni. rewrite E. apply (in_map (fun c => attr (c_plural c))). exact Hd.
  Qed.

  Lemma preallocate_yields R0 l ref cs :
    (forall k m, lookup k l = Some (JObj m) -> NoDup (keys m)) ->
    (forall c, In c cs -> registry_ok l c \/ lookup (py_key c) l = Some JNull) ->
    forall R heap,
      yields (preallocate X cs (members_of X S G R0 (JObj l)) ref R heap)
             (Some (regs_fold l cs (length heap) R,
                    heap ++ concat (map (fun c => map (ph c) (keys (objs l c))) cs))).
  Proof.
    intros Hwf Hok. induction cs as [|c cs IH]; intros R heap.
    - simpl. rewrite app_nil_r. apply yields_ret.
    - specialize (IH (fun d Hd => Hok d (or_intror Hd))).
      cbn [preallocate]. rewrite lookup_members. fold (py_key c). cbn [map concat regs_fold].
      destruct (Hok c (or_introl eq_refl)) as [[E|(m & E & Hm)]|E].
      + assert (Eo : objs l c = []) by (unfold objs; rewrite E; reflexivity).
        rewrite Eo, E. eapply yields_bind; [apply yields_ret|]. apply yields_full.
        simpl. rewrite Nat.add_0_r. apply IH.
      + assert (Eo : objs l c = m) by (unfold objs; rewrite E; reflexivity).
        rewrite Eo, E. eapply yields_bind.
        * eapply yields_bind; [apply (allocate_yields c ref (keys m) Hm [] heap); simpl; eapply Hwf; exact E|].
          apply yields_ret.
        * apply yields_full. rewrite app_assoc.
          replace (length heap + length m) with (length (heap ++ map (ph c) (keys m)))
            by (rewrite app_length, map_length; unfold keys; rewrite map_length; reflexivity).
          apply IH.
      + assert (Eo : objs l c = []) by (unfold objs; rewrite E; reflexivity).
        rewrite Eo, E. eapply yields_bind; [apply yields_ret|]. apply yields_full.
        simpl. rewrite Nat.add_0_r. apply IH.
  Qed.

  Lemma preallocate_clean R0 l ref cs : forall R heap,
    clean (preallocate X cs (members_of X S G R0 (JObj l)) ref R heap)
      (forall c, In c cs -> registry_ok l c \/ lookup (py_key c) l = Some JNull).
  Proof.
    induction cs as [|c cs IH]; intros R heap es a Ro H; [intros ? []|].
    cbn [preallocate] in H.
    apply bind_clean in H as ([R' heap'] & E1 & E2).
    - rewrite (room_not_full es Ro) in E2.
      intros d [<-|Hd]; [|revert d Hd; eapply IH; eassumption].
      rewrite lookup_members in E1. fold (py_key c) in E1. unfold registry_ok.
      destruct (lookup (py_key c) l) as [[]|] eqn:E; auto;
        try (exfalso; revert Ro E1; apply report_clean).
      left. right. exists l0. split; [reflexivity|].
      apply bind_clean in E1 as ([reg h] & E1 & _);
        [|apply keeps_allocate|intros []; apply keeps_ret].
      eapply allocate_clean; eassumption.
    - destruct (lookup _ _) as [[[] ?]|]; auto with keeps.
      apply keeps_bind; [apply keeps_allocate|]. intros []. apply keeps_ret.
    - intros []. apply keeps_full. apply keeps_preallocate.
  Qed.

  Lemma class_composite c : In c (g_classes G) -> In (c_props c) (composites G).
  Proof. intros H. unfold composites. apply in_or_app. left. apply in_map. exact H. Qed.

  Lemma graph_composite : In (g_props G) (composites G).
  Proof. unfold composites. apply in_or_app. right. apply in_or_app. right. left. reflexivity. Qed.

  (** *** The second pass *)
  Section Second.
    Variable R : registries.

    (** The instance built from a member of a registry. *)
    Definition inst_yields (c : cls) (kv : str * jval) (i : instance) : Prop :=
      i_class i = c_name c /\ i_id i = fst kv /\
      exists o, snd kv = JObj o /\ Forall2 (field_yields X S G R o) (c_props c) (i_attrs i).

    Lemma set_attrs_at h1 i h2 attrs :
      set_attrs (length h1) attrs (h1 ++ i :: h2) = h1 ++ Instance (i_class i) (i_id i) attrs :: h2.
    Proof.
      unfold set_attrs. rewrite nth_error_app2, Nat.sub_diag by lia. cbn [nth_error].
      rewrite firstn_app, Nat.sub_diag, firstn_all, firstn_O, app_nil_r.
      assert (E : skipn (Datatypes.S (length h1)) (h1 ++ i :: h2) = h2).
      { induction h1 as [|x h1 IH]; [reflexivity|]. exact IH. }
      rewrite E. reflexivity.
    Qed.

    Lemma parse_instances_yields c reg ref m is : In c (g_classes G) ->
      Forall2 (inst_yields c) m is ->
      forall h1 h2,
      (forall j id, nth_error (keys m) j = Some id -> lookup id reg = Some (length h1 + j)) ->
      yields (parse_instances X S G c R reg ref m (h1 ++ map (ph c) (keys m) ++ h2))
             (Some (h1 ++ is ++ h2)).
    Proof.
      intros Hc. induction 1 as [|[id v] i m is (Hcl & Hid & o & Ho & Hf) HF IH];
        intros h1 h2 Hreg; [apply yields_ret|].
      simpl in Hid, Ho. subst v. cbn [parse_instances].
      assert (E0 := Hreg 0 id eq_refl). rewrite Nat.add_0_r in E0. unfold addr in *. rewrite E0.
      change (map (ph c) (keys ((id, JObj o) :: m)) ++ h2)
        with (ph c id :: map (ph c) (keys m) ++ h2).
      rewrite nth_error_app2, Nat.sub_diag by lia. cbn [nth_error].
      eapply yields_bind.
      - apply composite_from_yields; [exact Hdistinct|apply class_composite; exact Hc|exact Hf].
      - apply yields_full. rewrite set_attrs_at. cbn [i_class i_id ph].
        replace (Instance (c_name c) id (i_attrs i)) with i
          by (destruct i; simpl in *; congruence).
        replace (h1 ++ i :: map (ph c) (keys m) ++ h2)
          with ((h1 ++ [i]) ++ map (ph c) (keys m) ++ h2) by (rewrite <- app_assoc; reflexivity).
        replace (h1 ++ (i :: is) ++ h2) with ((h1 ++ [i]) ++ is ++ h2)
          by (rewrite <- app_assoc; reflexivity).
        apply IH. intros j id' Hj. rewrite (Hreg (Datatypes.S j) id' Hj), app_length. simpl.
        f_equal. lia.
    Qed.

    Lemma lookup_reg_at_nth n ids j id : NoDup ids -> nth_error ids j = Some id ->
      lookup id (reg_at n ids) = Some (n + j).
    Proof.
      unfold reg_at. revert n j. induction ids as [|i ids IH]; intros n j Hnd Hj.
      - destruct j; discriminate.
      - inversion Hnd as [|? ? Hni Hnd']; subst. simpl. destruct j as [|j]; simpl in Hj.
        + injection Hj as ->. rewrite str_eqb_refl. f_equal. lia.
        + destruct (str_eqb id i) eqn:E.
          * apply str_eqb_eq in E. subst. apply nth_error_In in Hj. contradiction.
          * rewrite (IH (Datatypes.S n) j Hnd' Hj). f_equal. lia.
    Qed.

    Lemma parse_registries_yields l ref cs iss :
      (forall k m, lookup k l = Some (JObj m) -> NoDup (keys m)) ->
      (forall c, In c cs -> In c (g_classes G)) ->
      (forall c, In c cs -> registry_ok l c) ->
      Forall2 (fun c is => Forall2 (inst_yields c) (objs l c) is) cs iss ->
      forall h1, regs_at l R cs (length h1) ->
      yields (parse_registries X S G cs (members_of X S G R (JObj l)) ref R
                (h1 ++ concat (map (fun c => map (ph c) (keys (objs l c))) cs)))
             (Some (h1 ++ concat iss)).
    Proof.
      intros Hwf Hin Hok HF. induction HF as [|c is cs iss Hc HF IH]; intros h1 Hat.
      - simpl. rewrite app_nil_r. apply yields_ret.
      - destruct Hat as [Hat1 Hat2].
        specialize (IH (fun d Hd => Hin d (or_intror Hd)) (fun d Hd => Hok d (or_intror Hd))).
        cbn [parse_registries]. rewrite lookup_members. fold (py_key c).
        destruct (Hok c (or_introl eq_refl)) as [E|(m & E & Hm)]; rewrite E.
        + unfold objs in Hc, Hat2. rewrite E in Hc, Hat2. inversion Hc; subst.
          cbn [map concat]. unfold objs at 1. rewrite E. simpl.
          apply IH. rewrite Nat.add_0_r in Hat2. exact Hat2.
        + rewrite Hat1. cbn [map concat].
          unfold objs in Hc, Hat2 |- * at 1 2. rewrite E in Hc, Hat2 |- *.
          eapply yields_bind.
          * apply (parse_instances_yields c _ ref m is); [apply Hin; left; reflexivity|exact Hc|].
            intros j id Hj. apply lookup_reg_at_nth; [eapply Hwf; exact E|exact Hj].
          * cbv beta iota.
            replace (h1 ++ is ++ concat (map (fun c => map (ph c) (keys (objs l c))) cs))
              with ((h1 ++ is) ++ concat (map (fun c => map (ph c) (keys (objs l c))) cs))
              by (rewrite <- app_assoc; reflexivity).
            replace (h1 ++ is ++ concat iss) with ((h1 ++ is) ++ concat iss)
              by (rewrite <- app_assoc; reflexivity).
            apply IH. rewrite app_length, <- (Forall2_length _ _ _ Hc). exact Hat2.
    Qed.

    Notation fconf := (fields_conform G (py_leaf X S) (known G R)).

    Lemma composite_from_clean ps v ref attrs :
      clean (composite_from ps v (members_of X S G R v) ref attrs) (exists o, v = JObj o /\ fconf ps o).
    Proof.
      intros es a Ro H. unfold composite_from in H.
      destruct v; try (exfalso; revert Ro H; apply report_clean).
      exists l. split; [reflexivity|].
      apply bind_clean in H as ([early attrs'] & E1 & _);
        [|apply keeps_parse_properties, members_of_keep|intros []; apply keeps_ret].
      eapply parse_properties_clean; [| |apply members_of_keep|exact Ro|exact E1].
      - apply lookup_members.
      - intros v Hv. apply parse_value_clean.
    Qed.

    Lemma parse_instances_clean c reg ref m : forall heap,
      clean (parse_instances X S G c R reg ref m heap)
        (forall id v, In (id, v) m -> exists o, v = JObj o /\ fconf (c_props c) o).
    Proof.
      induction m as [|[id v] m IH]; intros heap es a Ro H; [intros ? ? []|].
      cbn [parse_instances] in H.
      destruct (lookup id reg) as [ad|]; [|discriminate].
      destruct (nth_error heap ad) as [i|]; [|discriminate].
      apply bind_clean in H as (attrs & E1 & E2).
      - rewrite (room_not_full es Ro) in E2.
        intros id' v' [Hi|Hi]; [|revert id' v' Hi; eapply IH; eassumption].
        injection Hi as <- <-. eapply composite_from_clean; eassumption.
      - apply keeps_composite_from, members_of_keep.
      - intros attrs. apply keeps_full. apply keeps_parse_instances.
    Qed.

    Lemma parse_registries_clean l ref cs : forall heap,
      clean (parse_registries X S G cs (members_of X S G R (JObj l)) ref R heap)
        (forall c, In c cs ->
           lookup (py_key c) l <> Some JNull /\
           forall id v, In (id, v) (objs l c) -> exists o, v = JObj o /\ fconf (c_props c) o).
    Proof.
      induction cs as [|c cs IH]; intros heap es a Ro H; [intros ? []|].
      cbn [parse_registries] in H. rewrite lookup_members in H. fold (py_key c) in H.
      destruct (lookup (py_key c) l) as [w|] eqn:E.
      - destruct w; try discriminate.
        destruct (lookup _ R) as [reg|]; [|discriminate].
        apply bind_clean in H as (r & E1 & E2).
        + destruct r as [heap'|].
          * intros d [<-|Hd]; [|revert d Hd; eapply IH; eassumption].
            rewrite E. split; [discriminate|]. unfold objs. rewrite E.
            eapply parse_instances_clean; eassumption.
          * exfalso. apply parse_instances_early in E1. rewrite (room_not_full es Ro) in E1.
            discriminate.
        + apply keeps_parse_instances.
        + intros [heap'|]; [apply keeps_parse_registries|apply keeps_ret].
      - intros d [<-|Hd]; [|revert d Hd; eapply IH; eassumption].
        rewrite E. split; [discriminate|]. unfold objs. rewrite E. intros ? ? [].
    Qed.
  End Second.

  (** *** The registries describe the listed instances *)

  Lemma find_class_In n c : find_class G n = Some c -> In c (g_classes G) /\ c_name c = n.
  Proof.
    intros H. apply find_some in H as [H1 H2]. apply str_eqb_eq in H2. auto.
  Qed.

  Lemma regs_at_lookup l R cs n c : regs_at l R cs n -> In c cs ->
    exists k, lookup (attr (c_plural c)) R = Some (reg_at k (keys (objs l c))).
  Proof.
    revert n. induction cs as [|d cs IH]; intros n Hat Hc; [destruct Hc|].
    destruct Hat as [H1 H2]. destruct Hc as [<-|Hc]; eauto.
  Qed.

  Lemma objs_listed l n id : listed G py_key l n id <->
    exists c, find_class G n = Some c /\ In id (keys (objs l c)).
  Proof.
    split.
    - intros (c & m & E1 & E2 & Hi). exists c. split; [exact E1|]. unfold objs. rewrite E2. exact Hi.
    - intros (c & E1 & Hi). unfold objs in Hi.
      destruct (lookup (py_key c) l) as [[]|] eqn:E; try destruct Hi.
      exists c, l0. auto.
  Qed.

  Lemma known_listed l R n id : regs_at l R (g_classes G) 0 ->
    (known G R n id <-> listed G py_key l n id).
  Proof.
    intros Hat. rewrite objs_listed. split.
    - intros (c & reg & a & E1 & E2 & E3). exists c. split; [exact E1|].
      destruct (regs_at_lookup _ _ _ _ c Hat (proj1 (find_class_In _ _ E1))) as [k Ek].
      rewrite E2 in Ek. injection Ek as ->. apply lookup_Some_key in E3.
      rewrite keys_reg_at in E3. exact E3.
    - intros (c & E1 & Hi).
      destruct (regs_at_lookup _ _ _ _ c Hat (proj1 (find_class_In _ _ E1))) as [k Ek].
      destruct (lookup_key_Some id (reg_at k (keys (objs l c)))) as [a Ea].
      { rewrite keys_reg_at. exact Hi. }
      exists c, (reg_at k (keys (objs l c))), a. auto.
  Qed.

  (** *** From the built lists to the graph specification *)

  Lemma empty_registries_lookup c : In c (g_classes G) ->
    lookup (attr (c_plural c)) (empty_registries G) = Some [].
  Proof.
    unfold empty_registries.
    assert (H : forall cs (R : registries), (forall k v, lookup k R = Some v -> v = []) ->
      forall k v, lookup k (fold_left (fun R c => upsert (attr (c_plural c)) [] R) cs R) = Some v -> v = []).
    { induction cs as [|d cs IH]; intros R HR k v; simpl; [apply HR|]. apply IH.
      intros k' v' H. destruct (list_eq_dec N.eq_dec (attr (c_plural d)) k') as [<-|Hn].
      - rewrite lookup_upsert_eq in H. congruence.
      - rewrite lookup_upsert_neq in H by exact Hn. eauto. }
    assert (H' : forall cs (R : registries) k, In k (keys R) \/ In k (map (fun c => attr (c_plural c)) cs) ->
      In k (keys (fold_left (fun R c => upsert (attr (c_plural c)) [] R) cs R))).
    { induction cs as [|d cs IH]; intros R k; simpl; [tauto|]. intros Hk. apply IH.
      rewrite keys_upsert_In. intuition. }
    intros Hc. destruct (lookup_key_Some (attr (c_plural c)) (empty_registries G)) as [v E].
    - apply H'. right. apply (in_map (fun c => attr (c_plural c))). exact Hc.
    - fold (empty_registries G). rewrite E. f_equal. eapply (H _ []); [|exact E].
      intros ? ? Hl. discriminate.
  Qed.

  Lemma json_wf_obj l k m : json_wf (JObj l) -> lookup k l = Some (JObj m) -> NoDup (keys m).
  Proof.
    intros Hwf E. inversion Hwf as [| | | | | |l0 Hn Hl]; subst.
    apply lookup_In in E. apply Hl in E. inversion E; assumption.
  Qed.

  Notation conf := (graph_conforms G (py_leaf X S) (py_id_ok X) py_key).

  (** The graph which is built from given instances. *)
  Lemma graph_from_yields l ref R iss attrs :
    json_wf (JObj l) ->
    (forall c, In c (g_classes G) -> registry_ok l c) ->
    (forall ref, yields (preallocate X (g_classes G) (members_of X S G [] (JObj l)) ref
                           (empty_registries G) [])
       (Some (R, concat (map (fun c => map (ph c) (keys (objs l c))) (g_classes G))))) ->
    regs_at l R (g_classes G) 0 ->
    Forall2 (fun c is => Forall2 (inst_yields R c) (objs l c) is) (g_classes G) iss ->
    Forall2 (field_yields X S G R l) (g_props G) attrs ->
    forall es, room es -> py_values es = [] ->
    graph_from X S G (JObj l) ref es = Ok (Some (PyGraph attrs R (concat iss)), es).
  Proof.
    intros Hwf Hok Hy Hat Hi Ha es Ro He. unfold graph_from. rewrite (room_not_full es Ro).
    unfold mbind at 1. rewrite Hy by exact Ro. cbv beta iota.
    assert (Hemp : py_empty es = true) by (unfold py_empty; rewrite He; reflexivity).
    rewrite Hemp. rewrite andb_false_r.
    unfold mbind at 1.
    assert (Hr := parse_registries_yields R l ref (g_classes G) iss
               (fun k m => json_wf_obj l k m Hwf) (fun c H => H) Hok Hi [] Hat es Ro).
    simpl app in Hr. rewrite Hr.
    unfold mbind.
    assert (Hp := parse_properties_yields X S G R l ref (g_props G) attrs Ha []
                    (Hdistinct _ graph_composite) es Ro).
    simpl app in Hp |- *. rewrite Hp. rewrite Hemp. reflexivity.
  Qed.


  Lemma points_known R n id a : designates G R n id a -> known G R n id.
  Proof. intros (c & reg & E1 & E2 & E3). exists c, reg, a. auto. Qed.

  (** The field values built by the parser represent the JSON fields, also after
      the registries are part of the graph. *)
  Lemma conforms_graph_from (I : Z -> Prop) l : json_wf (JObj l) -> all_ints I (JObj l) -> conf (JObj l) ->
    exists pg, graph_sat X G (py_scalar X S I) pg /\ graph_rep X S G l pg /\
      forall ref es, (0 < py_cap es)%Z -> py_values es = [] ->
        graph_from X S G (JObj l) ref es = Ok (Some pg, es).
  Proof.
    intros Hwf Hai (l0 & [= <-] & Hc & Hp).
    assert (Hok : forall c, In c (g_classes G) -> registry_ok l c).
    { intros c Hi. destruct (Hc c Hi) as [E|(m & E & Hm)]; [left; exact E|right].
      exists m. split; [exact E|]. intros id Hid. apply in_map_iff in Hid as [[id' v] [<- Hv]].
      intros p Hpat. apply (Hm _ _ Hv). exact Hpat. }
    destruct Hregs as (Hnames & Hattrs & Hkeys).
    remember (regs_fold l (g_classes G) 0 (empty_registries G)) as R eqn:ER.
    assert (Hat : regs_at l R (g_classes G) 0)
      by (subst R; apply regs_fold_at; [exact Hattrs|exact empty_registries_lookup]).
    assert (Hkn : forall n id, listed G py_key l n id -> known G R n id)
      by (intros n id; apply known_listed; exact Hat).
    assert (Hwfl : forall k v, lookup k l = Some v -> json_wf v).
    { intros k v E. inversion Hwf as [| | | | | |? Hn Hl]; subst. eapply Hl. apply lookup_In. exact E. }
    assert (Hail : forall k v, lookup k l = Some v -> all_ints I v).
    { intros k v E. inversion Hai as [| | | | | |? Hl]; subst. eapply Hl. apply lookup_In. exact E. }
    (* instances *)
    assert (Hinst : forall c, In c (g_classes G) -> forall id v, In (id, v) (objs l c) ->
              exists i o, inst_yields R c (id, v) i /\ v = JObj o /\
                attrs_sat G (py_scalar X S I) (in_regs G R) (c_props c) (i_attrs i) /\
                fields_rep X S G (designates G R) (c_props c) o (i_attrs i)).
    { intros c Hi id v Hv. unfold objs in Hv.
      destruct (Hc c Hi) as [E|(m & E & Hm)]; rewrite E in Hv; [destruct Hv|].
      destruct (Hm _ _ Hv) as (Hpat & o & -> & Hf).
      assert (Hwo : forall k v, lookup k o = Some v -> json_wf v).
      { intros k v Ek. apply Hwfl in E. inversion E as [| | | | | |? Hn Hl]; subst.
        apply Hl in Hv. inversion Hv as [| | | | | |? Hn' Hl']; subst. eapply Hl'. apply lookup_In. exact Ek. }
      assert (Hao : forall k v, lookup k o = Some v -> all_ints I v).
      { intros k v Ek. apply Hail in E. inversion E as [| | | | | |? Hl]; subst.
        apply Hl in Hv. inversion Hv as [| | | | | |? Hl']; subst. eapply Hl'. apply lookup_In. exact Ek. }
      destruct (fields_good X S G Hdistinct R I (c_props c) o (class_composite c Hi)) as (attrs & H1 & H2 & H3).
      - intros p v _ Ep _ Hcv. eapply conforms_good; eauto.
      - intros p Hpp. destruct (Hf p Hpp) as [H|(v & Ev & Hn & Hcv)]; [left; exact H|right].
        exists v. split; [exact Ev|]. split; [exact Hn|]. eapply conforms_mono; [intros ? ? HH; exact HH|exact Hkn|exact Hcv].
      - exists (Instance (c_name c) id attrs), o. split; [|auto].
        split; [reflexivity|]. split; [reflexivity|]. exists o. auto. }
    assert (Hiss : exists iss, Forall2 (fun c is => Forall2 (fun kv i => inst_yields R c kv i /\
               exists o, snd kv = JObj o /\
                attrs_sat G (py_scalar X S I) (in_regs G R) (c_props c) (i_attrs i) /\
                fields_rep X S G (designates G R) (c_props c) o (i_attrs i)) (objs l c) is)
                 (g_classes G) iss).
    { clear -Hinst. induction (g_classes G) as [|c cs IH]; [exists []; constructor|].
      destruct IH as [iss Hiss]; [intros d Hd; apply Hinst; right; exact Hd|].
      assert (Hc : exists is, Forall2 (fun kv i => inst_yields R c kv i /\
               exists o, snd kv = JObj o /\
                attrs_sat G (py_scalar X S I) (in_regs G R) (c_props c) (i_attrs i) /\
                fields_rep X S G (designates G R) (c_props c) o (i_attrs i)) (objs l c) is).
      { specialize (Hinst c (or_introl eq_refl)). clear -Hinst.
        induction (objs l c) as [|[id v] m IH]; [exists []; constructor|].
        destruct IH as [is His]; [intros id' v' H; apply Hinst; right; exact H|].
        destruct (Hinst id v (or_introl eq_refl)) as (i & o & H1 & H2 & H3).
        exists (i :: is). constructor; [|exact His]. split; [exact H1|]. exists o. auto. }
      destruct Hc as [is His]. exists (is :: iss). constructor; assumption. }
    destruct Hiss as [iss Hiss].
    assert (Hiss' : Forall2 (fun c is => Forall2 (inst_yields R c) (objs l c) is) (g_classes G) iss).
    { clear -Hiss. induction Hiss as [|c is cs iss H _ IH]; constructor; [|exact IH].
      clear -H. induction H as [|? ? ? ? [H _] _ IH]; constructor; assumption. }
    (* graph properties *)
    destruct (fields_good X S G Hdistinct R I (g_props G) l graph_composite) as (attrs & H1 & H2 & H3).
    { intros p v _ Ep _ Hcv. eapply conforms_good; eauto. }
    { intros p Hpp. destruct (Hp p Hpp) as [H|(v & Ev & Hn & Hcv)]; [left; exact H|right].
      exists v. split; [exact Ev|]. split; [exact Hn|]. eapply conforms_mono; [intros ? ? HH; exact HH|exact Hkn|exact Hcv]. }
    exists (PyGraph attrs R (concat iss)).
    (* an entry of a registry *)
    assert (Hentry : forall c, In c (g_classes G) ->
       exists reg, lookup (attr (c_plural c)) R = Some reg /\ keys reg = keys (objs l c) /\
         Forall2 (fun kv ka => fst kv = fst ka /\
           exists o i, snd kv = JObj o /\ nth_error (concat iss) (snd ka) = Some i /\
             i_class i = c_name c /\ i_id i = fst kv /\
             attrs_sat G (py_scalar X S I) (in_regs G R) (c_props c) (i_attrs i) /\
             fields_rep X S G (designates G R) (c_props c) o (i_attrs i)) (objs l c) reg).
    { change (concat iss) with ([] ++ concat iss).
      revert Hat. change 0 with (length (@nil instance)) at 1.
      generalize (@nil instance). clear -Hiss.
      induction Hiss as [|d is cs iss Hd _ IH]; intros h Hat c Hc; [destruct Hc|].
      destruct Hat as [Hat1 Hat2]. destruct Hc as [<-|Hc].
      - exists (reg_at (length h) (keys (objs l d))). split; [exact Hat1|].
        split; [apply keys_reg_at|]. cbn [concat]. clear -Hd. revert h.
        induction Hd as [|[id v] i m is ((Hcl & Hid & o & Ho & _) & o' & Ho' & Hs & Hr) _ IHd]; intros h.
        + constructor.
        + unfold keys, reg_at. simpl. constructor.
          * split; [reflexivity|]. exists o', i. simpl in *.
            rewrite nth_error_app2, Nat.sub_diag by lia. auto 10.
          * specialize (IHd (h ++ [i])). rewrite app_length in IHd. simpl in IHd.
            rewrite Nat.add_1_r in IHd. rewrite <- app_assoc in IHd. exact IHd.
      - cbn [concat]. rewrite app_assoc. apply IH; [|exact Hc].
        rewrite app_length, <- (Forall2_length _ _ _ Hd). exact Hat2. }
    assert (Hreg : forall n a, in_regs G R n a -> registered G (PyGraph attrs R (concat iss)) n a).
    { intros n a (c & reg & id & E1 & E2 & E3).
      destruct (find_class_In _ _ E1) as [Hin Hn].
      destruct (Hentry c Hin) as (reg' & E & Ek & HF). rewrite E2 in E. injection E as <-.
      apply lookup_In in E3 as HI.
      assert (Hex : exists i, nth_error (concat iss) a = Some i /\ i_class i = c_name c /\ i_id i = id).
      { clear -HF HI. induction HF as [|[k v] [k' a'] m reg (Hk & o & i & _ & H1 & H2 & H3 & _) _ IH];
          [destruct HI|]. destruct HI as [[= -> ->]|HI]; [|apply IH, HI].
        simpl in *. exists i. subst k. auto. }
      destruct Hex as (i & Ei & Ecl & Eid). exists c, reg, i. simpl.
      subst id. repeat split; auto. congruence. }
    split; [|split].
    - (* graph_sat *)
      split; [|split].
      + destruct H2 as [H2a H2b]. split; [exact H2a|]. intros p Hpp.
        destruct (H2b p Hpp) as (x & Ex & Hx). exists x. split; [exact Ex|].
        destruct Hx as [Hx|Hx]; [left; exact Hx|right]. eapply sat_mono; [intros ? ? HH; exact HH|exact Hreg|exact Hx].
      + intros c Hi. destruct (Hentry c Hi) as (reg & E & Ek & HF). exists reg.
        split; [exact E|]. split.
        * rewrite Ek. unfold objs. destruct (lookup (py_key c) l) as [[]|] eqn:El; try constructor.
          eapply json_wf_obj; eassumption.
        * intros id a Hia. simpl.
          clear -HF Hia. induction HF as [|[k v] [k' a'] m reg (Hk & o & i & _ & H1 & H2 & H3 & _) _ IH];
            [destruct Hia|]. destruct Hia as [[= -> ->]|Hia]; [|apply IH, Hia].
          simpl in *. exists i. subst k. auto.
      + intros c reg id a i Hi E Hia Ei. simpl in E, Ei.
        destruct (Hentry c Hi) as (reg' & E' & Ek & HF).
        assert (reg' = reg) by (rewrite E in E'; congruence). subst reg'. split.
        * destruct (Hok c Hi) as [El|(m & El & Hm)].
          -- unfold objs in Ek. rewrite El in Ek. destruct reg; [destruct Hia|discriminate].
          -- apply Hm. unfold objs in Ek. rewrite El in Ek. rewrite <- Ek.
             apply (in_map fst) in Hia. exact Hia.
        * assert (Ha : attrs_sat G (py_scalar X S I) (in_regs G R) (c_props c) (i_attrs i)).
          { clear -HF Hia Ei. induction HF as [|[k v] [k' a'] m reg (Hk & o & i' & _ & H1 & H2 & H3 & H4 & _) _ IH];
            [destruct Hia|]. destruct Hia as [[= -> ->]|Hia]; [|apply IH, Hia].
            simpl in H1. rewrite Ei in H1. injection H1 as <-. exact H4. }
          destruct Ha as [H2a H2b]. split; [exact H2a|]. intros p Hpp.
          destruct (H2b p Hpp) as (x & Ex & Hx). exists x. split; [exact Ex|].
          destruct Hx as [Hx|Hx]; [left; exact Hx|right]. eapply sat_mono; [intros ? ? HH; exact HH|exact Hreg|exact Hx].
    - (* graph_rep *)
      split; [exact H3|]. intros c Hi. destruct (Hentry c Hi) as (reg & E & Ek & HF). exists reg.
      split; [exact E|]. unfold objs in HF.
      destruct (Hok c Hi) as [El|(m & El & Hm)]; rewrite El in HF.
      + left. split; [exact El|]. inversion HF. reflexivity.
      + right. exists m. split; [exact El|]. clear -HF.
        induction HF as [|kv ka m reg (Hk & o & i & K1 & K2 & K3 & K4 & K5 & K6) _ IH]; constructor; [|exact IH].
        split; [exact Hk|]. exists o, i. auto.
    - intros ref es Hcap He. apply graph_from_yields; auto; [|unfold room; rewrite He; exact Hcap].
      intros ref'. subst R. apply (preallocate_yields [] l ref' (g_classes G)
        (fun k m => json_wf_obj l k m Hwf) (fun c H => or_introl (Hok c H)) (empty_registries G) []).
  Qed.

  Lemma graph_from_conforms v ref es pg es' : json_wf v -> (0 < py_cap es)%Z -> py_values es = [] ->
    graph_from X S G v ref es = Ok (Some pg, es') -> es' = es /\ conf v.
  Proof.
    intros Hwf Hcap He H.
    assert (Ro : room es) by (unfold room; rewrite He; exact Hcap).
    assert (Hout := graph_from_outcome X S G v ref es (Some pg) es' Hcap He H).
    assert (Hes : es' = es).
    { assert (Hv : py_values es' = []).
      { destruct (py_values es') eqn:E; [reflexivity|]. exfalso.
        destruct Hout as [_ Hout]. discriminate Hout. discriminate. }
      apply keeps_graph_from in H. destruct H as [Hc [k Hk]].
      destruct es, es'; simpl in *; subst. congruence. }
    subst es'. clear Hout. split; [reflexivity|].
    unfold graph_from in H. rewrite (room_not_full es Ro) in H.
    destruct v; try discriminate H.
    apply bind_clean in H as (r & E1 & H); [|apply keeps_preallocate|].
    2:{ intros [[R heap]|]; [|apply keeps_ret].
        intros es0 a es1 H0.
        destruct (_ && _); [injection H0 as <- <-; apply grown_refl|].
        revert H0. apply keeps_bind; [apply keeps_parse_registries|].
        clear. intros [heap'|]; auto with keeps.
        apply keeps_bind; [apply keeps_parse_properties, members_of_keep|].
        intros [[] attrs]; auto with keeps.
        intros es a es' H. destruct (py_empty es); injection H as <- <-; apply grown_refl. }
    assert (Hpre := preallocate_clean [] l ref _ _ _ es _ Ro E1).
    rewrite (preallocate_yields [] l ref (g_classes G) (fun k m => json_wf_obj l k m Hwf) Hpre
               (empty_registries G) [] es Ro) in E1.
    injection E1 as <-. cbv beta iota in H.
    destruct Hregs as (Hnames & Hattrs & Hkeys).
    remember (regs_fold l (g_classes G) 0 (empty_registries G)) as R eqn:ER.
    assert (Hat : regs_at l R (g_classes G) 0)
      by (subst R; apply regs_fold_at; [exact Hattrs|exact empty_registries_lookup]).
    clear ER.
    assert (Hkn : forall n id, known G R n id -> listed G py_key l n id)
      by (intros n id; apply known_listed; exact Hat).
    destruct (_ && _); [discriminate H|].
    apply bind_clean in H as (r & E1 & H); [|apply keeps_parse_registries|].
    2:{ intros [heap'|]; auto with keeps.
        apply keeps_bind; [apply keeps_parse_properties, members_of_keep|].
        intros [[] attrs]; auto with keeps.
        intros es0 a es1 H0. destruct (py_empty es0); injection H0 as <- <-; apply grown_refl. }
    assert (Hr := parse_registries_clean R l ref _ _ es _ Ro E1).
    destruct r as [heap'|]; [|discriminate H].
    apply bind_clean in H as ([early attrs] & E2 & _);
      [|apply keeps_parse_properties, members_of_keep|].
    2:{ intros [[] ?]; auto with keeps.
        intros es0 a es1 H0. destruct (py_empty es0); injection H0 as <- <-; apply grown_refl. }
    exists l. split; [reflexivity|]. split.
    - intros c Hc. destruct (Hr c Hc) as [Hn Hi].
      destruct (Hpre c Hc) as [[E|(m & E & Hm)]|E]; [left; exact E| |contradiction].
      right. exists m. split; [exact E|]. intros id v Hv. unfold objs in Hi. rewrite E in Hi. split.
      + intros p Hp. apply (Hm id); [|exact Hp]. apply (in_map fst) in Hv. exact Hv.
      + destruct (Hi id v Hv) as (o & -> & Hf). exists o. split; [reflexivity|].
        intros p Hp. destruct (Hf p Hp) as [H|(w & Ew & Hw & Hcw)]; [left; exact H|right].
        exists w. split; [exact Ew|]. split; [exact Hw|].
        eapply conforms_mono; [intros ? ? HH; exact HH|exact Hkn|exact Hcw].
    - assert (Hf : fields_conform G (py_leaf X S) (known G R) (g_props G) l).
      { eapply parse_properties_clean; [| |apply members_of_keep|exact Ro|exact E2].
        - apply lookup_members.
        - intros v Hv. apply parse_value_clean. }
      intros p Hp. destruct (Hf p Hp) as [H|(w & Ew & Hw & Hcw)]; [left; exact H|right].
      exists w. split; [exact Ew|]. split; [exact Hw|].
      eapply conforms_mono; [intros ? ? HH; exact HH|exact Hkn|exact Hcw].
  Qed.
End Py.
