(** The graphs of the three languages as graphs of any language. *)
From Coq Require Import String List ZArith NArith Bool Lia Floats.SpecFloat.
From Verif Require Import Base M_Naming M_Schema M_Num M_PyGen M_GoGen M_CppGen
  S_Conform S_Common S_PyGen S_GoGen S_CppGen S_Interop P_Common P_PyClean P_Interop.
Import ListNotations.
Local Open Scope nat_scope.

Ltac parts :=
  repeat match goal with
         | H : exists _, _ |- _ => destruct H
         | H : _ /\ _ |- _ => destruct H
         | H : _ \/ _ |- _ => destruct H
         | H : False |- _ => destruct H
         end.

(** ** Python *)
Section Py.
  Variable X : ext.
  Variable S : py_settings.
  Variable G : graph.
  Hypothesis Hattrs : attrs_distinct G.

  Lemma py_atom t v x : scalar_rep X S t v x -> of_py x = UAtom x.
  Proof.
    destruct t; cbn -[float_of_Z]; intros H; parts; subst; try reflexivity;
      try (destruct (pathlib S); reflexivity).
    destruct (pytz S); parts; subst; reflexivity.
  Qed.

  Section Points.
    Variables P Q : str -> str -> addr -> Prop.
    Hypothesis HPQ : forall n id a, P n id a -> Q n id a.

    Lemma py_props ps l attrs : NoDup (map (fun p => attr (p_name p)) ps) ->
      Forall2 (fun p kx => fst kx = attr (p_name p) /\
                 ((absent (p_json p) l /\ snd kx = PVNone) \/
                  (exists v, lookup (p_json p) l = Some v /\ v <> JNull /\
                             rep X S G P (p_type p) v (snd kx)))) ps attrs ->
      forall p, In p ps -> exists x, lookup (attr (p_name p)) attrs = Some x /\
        ((absent (p_json p) l /\ x = PVNone) \/
         (exists v, lookup (p_json p) l = Some v /\ v <> JNull /\ rep X S G P (p_type p) v x)).
    Proof.
      intros ND F. induction F as [|p [k x] ps attrs [Hk Hx] F IH]; intros q Hq; [destruct Hq|].
      simpl in *. inversion ND as [|? ? Hni ND']; subst. destruct Hq as [<-|Hq].
      - exists x. rewrite str_eqb_refl. auto.
      - destruct (IH ND' q Hq) as (y & Ey & Hy). exists y. split; [|exact Hy].
        destruct (str_eqb (attr (p_name q)) (attr (p_name p))) eqn:E; [|exact Ey].
        apply str_eqb_eq in E. exfalso. apply Hni. rewrite <- E. apply (in_map (fun p => attr (p_name p))). exact Hq.
    Qed.

    Lemma py_rep v : forall t x, json_wf v -> rep X S G P t v x ->
      urep G (Python X S) (scalar_rep X S) Q t v (of_py x).
    Proof.
      induction v as [| | | | |l IH|l IH] using jval_ind'; intros t x W R.
      1-4: inversion R as [? ? ? Sc A| | | |]; subst; rewrite (py_atom _ _ _ A); apply ur_scalar; assumption.
      - inversion R as [? ? ? Sc A| | |? ? a Pa|]; subst.
        + rewrite (py_atom _ _ _ A). apply ur_scalar; assumption.
        + apply ur_ref. apply HPQ. exact Pa.
      - rewrite Forall_forall in IH. inversion R as [? ? ? Sc A|? ? ? ? xs F| | |]; subst.
        + rewrite (py_atom _ _ _ A). apply ur_scalar; assumption.
        + cbn [of_py]. apply ur_array. assert (Wl : forall v, In v l -> json_wf v) by exact (fun v => wf_item l v W).
          clear R W. induction F as [|v x l xs Hv F IHF]; simpl; constructor.
          * apply IH; [left; reflexivity|apply Wl; left; reflexivity|exact Hv].
          * apply IHF; intros; [apply IH|apply Wl]; try right; assumption.
      - rewrite Forall_forall in IH. inversion R as [? ? ? Sc A| |? ? xs F| |? e ? attrs E F]; subst.
        + rewrite (py_atom _ _ _ A). apply ur_scalar; assumption.
        + cbn [of_py].
          assert (K : keys l = keys xs).
          { clear -F. induction F as [|[k v] [k' x] l xs [Hk _] _ IHF]; [reflexivity|]. unfold keys in *. simpl in *. congruence. }
          assert (ND : NoDup (keys xs)) by (rewrite <- K; apply wf_keys; exact W).
          apply ur_map.
          * rewrite keys_map_snd. exact ND.
          * intros k. rewrite keys_map_snd, K. reflexivity.
          * intros k v y Hv Hy. apply in_map_iff in Hy as ([k' x] & [= -> <-] & Hx).
            apply (IH _ Hv); [wfm|]. clear -F Hv Hx K ND W.
            assert (NDl : NoDup (keys l)) by (apply wf_keys; exact W). clear W.
            induction F as [|[k1 v1] [k2 x1] l xs [Hk Hr] F IHF]; [destruct Hv|]. simpl in Hk, Hr. subst k2.
            unfold keys in ND, NDl. simpl in ND, NDl. inversion ND as [|? ? N1 N2]; subst. inversion NDl as [|? ? M1 M2]; subst.
            destruct Hv as [[= -> ->]|Hv], Hx as [[= Ex]|Hx]; subst.
            -- exact Hr.
            -- exfalso. apply N1. apply (in_map fst) in Hx. exact Hx.
            -- exfalso. apply M1. apply (in_map fst) in Hv. exact Hv.
            -- apply IHF; auto. unfold keys in K. simpl in K. injection K as K. exact K.
        + cbn [of_py]. eapply ur_embed; [exact E|]. intros p Hp.
          destruct (py_props _ _ _ (Hattrs _ (embed_props _ _ _ E)) F p Hp) as (x & Ex & [[Ha ->]|(v & Ev & Nv & Rv)]).
          * left. split; [exact Ha|]. cbn [l_name Python]. rewrite lookup_map_snd, Ex. reflexivity.
          * right. exists v, (of_py x). split; [exact Ev|]. split; [exact Nv|]. cbn [l_name Python]. rewrite lookup_map_snd, Ex.
            split; [reflexivity|]. apply (IH _ (lookup_In _ _ _ Ev)); [wfm|exact Rv].
    Qed.

    Lemma py_fields ps l attrs : In ps (composites G) -> json_wf (JObj l) ->
      fields_rep X S G P ps l attrs -> ufields G (Python X S) (scalar_rep X S) Q ps l (members_py attrs).
    Proof.
      intros Hps W F p Hp. unfold members_py. cbn [l_name Python].
      destruct (py_props _ _ _ (Hattrs _ Hps) F p Hp) as (x & Ex & [[Ha ->]|(v & Ev & Nv & Rv)]).
      - left. split; [exact Ha|]. rewrite lookup_map_snd, Ex. reflexivity.
      - right. exists v, (of_py x). split; [exact Ev|]. split; [exact Nv|]. rewrite lookup_map_snd, Ex.
        split; [reflexivity|]. apply py_rep; [wfm|exact Rv].
    Qed.
  End Points.

  Lemma py_graph l pg : json_wf (JObj l) -> graph_rep X S G l pg ->
    ugraph_rep G (Python X S) (scalar_rep X S) l (py_view pg).
  Proof.
    intros W [F C].
    assert (HPQ : forall n id a, designates G (pg_registries pg) n id a -> udesignates G (py_view pg) n id a).
    { intros n id a (c & reg & E & Er & Ea). exists c. split; [exact E|]. cbn [ug_registry py_view]. rewrite Er. exact Ea. }
    split.
    - eapply py_fields; [exact HPQ|apply graph_props|exact W|exact F].
    - intros c Hc. destruct (C c Hc) as (reg & Er & H). cbn [ug_registry py_view]. rewrite Er.
      destruct H as [[El ->]|(m & Em & HF)].
      { split; [constructor|]. left. auto. }
      assert (K : keys m = keys reg).
      { clear -HF. induction HF as [|[k v] [k' x] l xs [Hk _] _ IHF]; [reflexivity|]. unfold keys in *. simpl in *. congruence. }
      assert (NDm : NoDup (keys m)) by (apply wf_keys; wfm).
      split; [exact (eq_ind _ (@NoDup str) NDm _ K)|]. right. exists m. split; [exact Em|].
      split; [exact (fun id => eq_ind _ (fun z => In id (keys m) <-> In id z) (iff_refl _) _ K)|].
      intros id v a Hv Ha.
      assert (exists o i, v = JObj o /\ nth_error (pg_heap pg) a = Some i /\ M_PyGen.i_class i = c_name c /\ M_PyGen.i_id i = id /\
               fields_rep X S G (designates G (pg_registries pg)) (c_props c) o (i_attrs i)) as (o & i & -> & Hi & Hcl & Hid & Rp).
      { clear -HF Hv Ha K NDm. assert (NDr : NoDup (keys reg)) by (rewrite <- K; exact NDm).
        induction HF as [|[k1 v1] [k2 a1] m reg (Hk & Hr) F IHF]; [destruct Hv|]. simpl in Hk, Hr. subst k2.
        unfold keys in NDm, NDr. simpl in NDm, NDr. inversion NDm as [|? ? N1 N2]; subst. inversion NDr as [|? ? M1 M2]; subst.
        destruct Hv as [[= -> ->]|Hv], Ha as [[= Ex]|Ha]; subst.
        - exact Hr.
        - exfalso. apply M1. apply (in_map fst) in Ha. exact Ha.
        - exfalso. apply N1. apply (in_map fst) in Hv. exact Hv.
        - apply IHF; auto. unfold keys in K. simpl in K. injection K as K. exact K. }
      exists o, (UObj (M_PyGen.i_class i) (M_PyGen.i_id i) (members_py (i_attrs i))). split; [reflexivity|]. split.
      { cbn [ug_heap py_view]. rewrite nth_error_map, Hi. reflexivity. }
      split; [exact Hcl|]. split; [exact Hid|]. cbn [u_fields].
      eapply py_fields; [exact HPQ|apply class_props; exact Hc| |exact Rp].
      eapply wf_member; [|exact Hv]. wfm.
  Qed.
End Py.

(** ** Go *)
Section Go_.
  Variable X : gext.
  Variable G : graph.

  Lemma go_atom t v x : go_scalar_rep X t v x -> of_go x = UAtom x.
  Proof. destruct t; cbn; intros H; parts; subst; reflexivity. Qed.

  Section Points.
    Variables P Q : str -> str -> addr -> Prop.
    Hypothesis HPQ : forall n id a, P n id a -> Q n id a.

    Lemma go_rep_null t x : ~ grep X G P t JNull x.
    Proof.
      intros R. inversion R as [? ? ? Sc A| | | |]; subst. destruct t; try discriminate Sc; cbn in A; parts; congruence.
    Qed.

    Lemma go_rep v : forall t x, grep X G P t v x -> urep G (Go_ X) (go_scalar_rep X) Q t v (of_go x).
    Proof.
      induction v as [| | | | |l IH|l IH] using jval_ind'; intros t x R.
      1-4: inversion R as [? ? ? Sc A| | | |]; subst; rewrite (go_atom _ _ _ A); apply ur_scalar; assumption.
      - inversion R as [? ? ? Sc A| | |? ? a Pa|]; subst.
        + rewrite (go_atom _ _ _ A). apply ur_scalar; assumption.
        + apply ur_ref. apply HPQ. exact Pa.
      - rewrite Forall_forall in IH. inversion R as [? ? ? Sc A|? ? ? ? xs F| | |]; subst.
        + rewrite (go_atom _ _ _ A). apply ur_scalar; assumption.
        + cbn [of_go]. apply ur_array. clear R. induction F as [|v x l xs Hv F IHF]; simpl; constructor.
          * apply IH; [left; reflexivity|exact Hv].
          * apply IHF; intros; apply IH; [right|]; assumption.
      - rewrite Forall_forall in IH. inversion R as [? ? ? Sc A| |? ? xs ND K F| |? e ? fs E K F]; subst.
        + rewrite (go_atom _ _ _ A). apply ur_scalar; assumption.
        + cbn [of_go]. apply ur_map.
          * rewrite keys_map_snd. exact ND.
          * intros k. rewrite keys_map_snd. apply K.
          * intros k v y Hv Hy. apply in_map_iff in Hy as ([k' x] & [= -> <-] & Hx). apply (IH _ Hv). eapply F; eassumption.
        + cbn [of_go]. eapply ur_embed; [exact E|]. intros p Hp. cbn [l_name Go_]. rewrite lookup_map_snd.
          destruct (F p Hp) as [(Ha & Ex)|(v & x & Ev & Ex & _ & Rv)]; rewrite Ex.
          * left. split; [left; exact Ha|reflexivity].
          * right. exists v, (of_go x). split; [exact Ev|]. split; [intros ->; exact (go_rep_null _ _ Rv)|].
            split; [reflexivity|]. apply (IH _ (lookup_In _ _ _ Ev)). exact Rv.
    Qed.

    Lemma go_fields ps l fs : gfields_rep X G P ps l fs -> ufields G (Go_ X) (go_scalar_rep X) Q ps l (members_go fs).
    Proof.
      intros [_ F] p Hp. unfold members_go. cbn [l_name Go_]. rewrite lookup_map_snd.
      destruct (F p Hp) as [(Ha & Ex)|(v & x & Ev & Ex & _ & Rv)]; rewrite Ex.
      - left. split; [left; exact Ha|reflexivity].
      - right. exists v, (of_go x). split; [exact Ev|]. split; [intros ->; exact (go_rep_null _ _ Rv)|].
        split; [reflexivity|]. apply go_rep. exact Rv.
    Qed.
  End Points.

  Lemma go_graph l gg : go_graph_rep X G l gg -> ugraph_rep G (Go_ X) (go_scalar_rep X) l (go_view gg).
  Proof.
    intros [F C].
    assert (HPQ : forall n id a, gdesignates G (gg_registries gg) n id a -> udesignates G (go_view gg) n id a).
    { intros n id a (c & E & Ea). exists c. split; [exact E|]. exact Ea. }
    split.
    - eapply go_fields; [exact HPQ|exact F].
    - intros c Hc. destruct (C c Hc) as (ND & H). split; [exact ND|].
      destruct H as [H|(m & Em & K & H)]; [left; exact H|]. right. exists m. split; [exact Em|]. split; [exact K|].
      intros id v a Hv Ha. destruct (H id v a Hv Ha) as (o & i & -> & Hi & Hcl & Hid & Rp).
      exists o, (UObj (o_class i) (o_id i) (members_go (o_fields i))). split; [reflexivity|]. split.
      { cbn [ug_heap go_view]. rewrite nth_error_map, Hi. reflexivity. }
      split; [exact Hcl|]. split; [exact Hid|]. eapply go_fields; [exact HPQ|exact Rp].
  Qed.
End Go_.

(** ** C++ *)
Section Cpp_.
  Variable X : cext.
  Variable G : graph.

  Lemma cpp_atom t v x : cpp_scalar_rep X t v x -> of_cpp x = UAtom x.
  Proof. destruct t; cbn -[float_of_Z]; intros H; parts; subst; reflexivity. Qed.

  Section Points.
    Variables P Q : str -> str -> addr -> Prop.
    Hypothesis HPQ : forall n id a, P n id a -> Q n id a.

    Lemma cpp_rep_null t x : ~ crep X G P t JNull x.
    Proof.
      intros R. inversion R as [? ? ? Sc A| | | |]; subst.
      destruct t; try discriminate Sc; cbn -[float_of_Z] in A; unfold whole, double in A; parts; congruence.
    Qed.

    Lemma cpp_rep v : forall t x, crep X G P t v x -> urep G (Cpp_ X) (cpp_scalar_rep X) Q t v (of_cpp x).
    Proof.
      induction v as [| | | | |l IH|l IH] using jval_ind'; intros t x R.
      1-4: inversion R as [? ? ? Sc A| | | |]; subst; rewrite (cpp_atom _ _ _ A); apply ur_scalar; assumption.
      - inversion R as [? ? ? Sc A| | |? ? a Pa|]; subst.
        + rewrite (cpp_atom _ _ _ A). apply ur_scalar; assumption.
        + apply ur_ref. apply HPQ. exact Pa.
      - rewrite Forall_forall in IH. inversion R as [? ? ? Sc A|? ? ? ? xs F| | |]; subst.
        + rewrite (cpp_atom _ _ _ A). apply ur_scalar; assumption.
        + cbn [of_cpp]. apply ur_array. clear R. induction F as [|v x l xs Hv F IHF]; simpl; constructor.
          * apply IH; [left; reflexivity|exact Hv].
          * apply IHF; intros; apply IH; [right|]; assumption.
      - rewrite Forall_forall in IH. inversion R as [? ? ? Sc A| |? ? xs ND K F| |? e ? fs E K F]; subst.
        + rewrite (cpp_atom _ _ _ A). apply ur_scalar; assumption.
        + cbn [of_cpp]. apply ur_map.
          * rewrite keys_map_snd. exact ND.
          * intros k. rewrite keys_map_snd. apply K.
          * intros k v y Hv Hy. apply in_map_iff in Hy as ([k' x] & [= -> <-] & Hx). apply (IH _ Hv). eapply F; eassumption.
        + cbn [of_cpp]. eapply ur_embed; [exact E|]. intros p Hp. cbn [l_name Cpp_]. rewrite lookup_map_snd.
          destruct (F p Hp) as [(Ha & Ex)|(v & x & Ev & Ex & _ & Rv)]; rewrite Ex.
          * left. split; [left; exact Ha|reflexivity].
          * right. exists v, (of_cpp x). split; [exact Ev|]. split; [intros ->; exact (cpp_rep_null _ _ Rv)|].
            split; [reflexivity|]. apply (IH _ (lookup_In _ _ _ Ev)). exact Rv.
    Qed.

    Lemma cpp_fields_rep ps l fs : cfields_rep X G P ps l fs -> ufields G (Cpp_ X) (cpp_scalar_rep X) Q ps l (members_cpp fs).
    Proof.
      intros [_ F] p Hp. unfold members_cpp. cbn [l_name Cpp_]. rewrite lookup_map_snd.
      destruct (F p Hp) as [(Ha & Ex)|(v & x & Ev & Ex & _ & Rv)]; rewrite Ex.
      - left. split; [left; exact Ha|reflexivity].
      - right. exists v, (of_cpp x). split; [exact Ev|]. split; [intros ->; exact (cpp_rep_null _ _ Rv)|].
        split; [reflexivity|]. apply cpp_rep. exact Rv.
    Qed.
  End Points.

  Lemma cpp_graph l g : cpp_graph_rep X G l g -> ugraph_rep G (Cpp_ X) (cpp_scalar_rep X) l (cpp_view g).
  Proof.
    intros [F C].
    assert (HPQ : forall n id a, cdesignates G (cg_registries g) n id a -> udesignates G (cpp_view g) n id a).
    { intros n id a (c & E & Ea). exists c. split; [exact E|]. exact Ea. }
    split.
    - eapply cpp_fields_rep; [exact HPQ|exact F].
    - intros c Hc. destruct (C c Hc) as (ND & H). split; [exact ND|].
      destruct H as [H|(m & Em & K & H)]; [left; exact H|]. right. exists m. split; [exact Em|]. split; [exact K|].
      intros id v a Hv Ha. destruct (H id v a Hv Ha) as (o & i & -> & Hi & Hcl & Hid & Rp).
      exists o, (UObj (i_class i) (i_id i) (members_cpp (i_fields i))). split; [reflexivity|]. split.
      { cbn [ug_heap cpp_view]. rewrite nth_error_map, Hi. reflexivity. }
      split; [exact Hcl|]. split; [exact Hid|]. eapply cpp_fields_rep; [exact HPQ|exact Rp].
  Qed.
End Cpp_.
