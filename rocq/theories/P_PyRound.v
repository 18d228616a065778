(** C09: parsing what was serialized. *)
From Verif Require Import Base M_Naming M_Errors M_Dec M_Schema M_PyGen S_Conform S_PyGen S_PySer
  P_PyBase P_PyUnknown P_PyClean P_PyGraph P_PySer.
From Coq Require Import String List Arith NArith ZArith Bool Lia.
Import ListNotations.

Lemma all_ints_True v : all_ints (fun _ => True) v.
Proof.
  induction v as [| | | | |l IH|l IH] using jval_ind'; constructor; auto.
  - intros v Hv. rewrite Forall_forall in IH. auto.
  - intros k v Hv. rewrite Forall_forall in IH. apply (IH _ Hv).
Qed.

Section Py.
  Variable X : ext.
  Variable S : py_settings.
  Variable G : graph.
  Hypothesis Hdistinct : attrs_distinct G.
  Hypothesis Hregs : registries_distinct G.

  (** *** A JSON value represents at most one Python value *)

  Lemma int_value_fun v z z' : int_value v z -> int_value v z' -> z = z'.
  Proof. intros [H|[[H ?]|[H ?]]] [H'|[[H' ?]|[H' ?]]]; congruence. Qed.

  Lemma scalar_rep_fun t v x x' : scalar_rep X S t v x -> scalar_rep X S t v x' -> x = x'.
  Proof.
    intros H H'. destruct t; cbn [scalar_rep] in *; try contradiction;
      repeat match goal with
             | H : exists _, _ |- _ => destruct H
             | H : _ /\ _ |- _ => destruct H
             | H : _ \/ _ |- _ => destruct H
             | H : int_value _ _, H' : int_value _ _ |- _ =>
                 pose proof (int_value_fun _ _ _ H H'); clear H'
             | H : if ?b then _ else _ |- _ => destruct b
             end; subst; try congruence;
      try (destruct (pathlib S); congruence);
      match goal with
      | H : int_value (JFloat _) _ |- _ => destruct H as [H|[[H ?]|[H ?]]]; discriminate
      end.
  Qed.

  Lemma scalar_rep_atom t v x : scalar_rep X S t v x ->
    match x with PVList _ | PVDict _ | PVRef _ | PVEmbed _ _ => False | _ => True end.
  Proof.
    intros H. destruct t; cbn [scalar_rep] in *; try contradiction;
      repeat match goal with
             | H : exists _, _ |- _ => destruct H
             | H : _ /\ _ |- _ => destruct H
             | H : _ \/ _ |- _ => destruct H
             | H : context [if ?b then _ else _] |- _ => destruct b
             end; subst; exact I.
  Qed.

  Section Fun.
    Variables P P' : str -> str -> addr -> Prop.
    Definition both (a b : addr) : Prop := exists n id, P n id a /\ P' n id b.

    Lemma rep_veq v : forall t x x', rep X S G P t v x -> rep X S G P' t v x' -> veq both x x'.
    Proof.
      assert (Hsc : forall t v x x', scalar t = true -> scalar_rep X S t v x ->
                rep X S G P' t v x' -> veq both x x').
      { intros t v0 x x' Hs H H'.
        inversion H' as [? ? ? _ Hr'| | | |]; subst; try discriminate Hs.
        rewrite <- (scalar_rep_fun _ _ _ _ H Hr'). apply veq_atom. eapply scalar_rep_atom. exact H. }
      induction v as [| | | | |l IH|l IH] using jval_ind'; intros t x x' H H'.
      1-4: inversion H; subst; eapply Hsc; eassumption.
      - inversion H as [? ? ? Hs Hr| | |n id a Hp|]; subst; [eapply Hsc; eassumption|].
        inversion H' as [? ? ? Hs' Hr'| | |n' id' a' Hp'|]; subst; [discriminate Hs'|].
        apply veq_ref. exists n, s. auto.
      - inversion H as [? ? ? Hs Hr|t0 mn mx l0 xs HF| | |]; subst; [eapply Hsc; eassumption|].
        inversion H' as [? ? ? Hs' Hr'|t1 mn' mx' l1 ys HF'| | |]; subst; [discriminate Hs'|].
        apply veq_list. clear H H'. revert ys HF'. induction HF as [|v x l xs Hv _ IHl]; intros ys HF';
          inversion HF' as [|? y ? ys' Hv' HF2]; subst; constructor.
        + inversion IH; subst. eauto.
        + inversion IH; subst. eauto.
      - inversion H as [? ? ? Hs Hr| |t0 l0 xs HF| |n e l0 attrs He HF]; subst; [eapply Hsc; eassumption| |].
        + inversion H' as [? ? ? Hs' Hr'| |t1 l1 ys HF'| |]; subst; [discriminate Hs'|].
          apply veq_dict. clear H H'. revert ys HF'. induction HF as [|[k v] x l xs [Hk Hv] _ IHl]; intros ys HF';
            inversion HF' as [|? y ? ys' [Hk' Hv'] HF2]; subst; constructor.
          * split; [congruence|]. inversion IH; subst. eauto.
          * inversion IH; subst. eauto.
        + inversion H' as [? ? ? Hs' Hr'| | | |n' e' l1 ys He' HF']; subst; [discriminate Hs'|].
          rewrite He in He'. injection He' as <-.
          apply veq_embed. clear H H' He. revert ys HF'.
          induction HF as [|p x ps xs [Hk Hv] _ IHl]; intros ys HF';
            inversion HF' as [|? y ? ys' [Hk' Hv'] HF2]; subst; constructor.
          * split; [congruence|].
            destruct Hv as [[Ha E]|(v & E & Hn & Hr)], Hv' as [[Ha' E']|(v' & E' & Hn' & Hr')].
            -- rewrite E, E'. apply veq_atom. exact I.
            -- exfalso. destruct Ha as [Ha|Ha]; rewrite Ha in E'; [discriminate|]. injection E' as <-. congruence.
            -- exfalso. destruct Ha' as [Ha|Ha]; rewrite Ha in E; [discriminate|]. injection E as <-. congruence.
            -- rewrite E in E'. injection E' as <-. rewrite Forall_forall in IH.
               apply lookup_In in E. eapply (IH _ E); eassumption.
          * apply IHl. exact HF2.
    Qed.

    Lemma fields_rep_eq ps l xs ys : fields_rep X S G P ps l xs -> fields_rep X S G P' ps l ys ->
      attrs_eq both xs ys.
    Proof.
      intros HF. revert ys. induction HF as [|p x ps xs [Hk Hv] _ IHl]; intros ys HF';
        inversion HF' as [|? y ? ys' [Hk' Hv'] HF2]; subst; constructor.
      - split; [congruence|].
        destruct Hv as [[Ha E]|(v & E & Hn & Hr)], Hv' as [[Ha' E']|(v' & E' & Hn' & Hr')].
        + rewrite E, E'. apply veq_atom. exact I.
        + exfalso. destruct Ha as [Ha|Ha]; rewrite Ha in E'; [discriminate|]. injection E' as <-. congruence.
        + exfalso. destruct Ha' as [Ha|Ha]; rewrite Ha in E; [discriminate|]. injection E as <-. congruence.
        + rewrite E in E'. injection E' as <-. eapply rep_veq; eassumption.
      - apply IHl. exact HF2.
    Qed.
  End Fun.

  (** The class and the identifier of a registered instance are determined by it. *)
  Lemma rep_designates l pg n id a : graph_rep X S G l pg ->
    designates G (pg_registries pg) n id a ->
    exists i, nth_error (pg_heap pg) a = Some i /\ i_class i = n /\ i_id i = id.
  Proof.
    intros [_ Hr] (c & reg & E1 & E2 & E3).
    destruct (find_class_In _ _ _ E1) as [Hin Hn].
    destruct (Hr c Hin) as (reg' & E' & H). rewrite E2 in E'. injection E' as <-.
    destruct H as [[_ ->]|(m & _ & HF)]; [discriminate|].
    apply lookup_In in E3.
    assert (HF' : Forall2 (fun (ka : str * addr) (kv : str * jval) => exists i,
              nth_error (pg_heap pg) (snd ka) = Some i /\ i_class i = n /\ i_id i = fst ka) reg m).
    { clear -HF Hn. induction HF as [|kv ka m reg (Hk & o & i & _ & H1 & H2 & H3 & _) _ IH]; constructor; [|exact IH].
      exists i. split; [exact H1|]. split; [rewrite H2; exact Hn|]. exact (eq_trans H3 Hk). }
    destruct (Forall2_In_l _ _ _ _ HF' E3) as (kv & _ & i & H1 & H2 & H3). eauto.
  Qed.

  Lemma designates_fun R n id a b : designates G R n id a -> designates G R n id b -> a = b.
  Proof. intros (c & reg & E1 & E2 & E3) (c' & reg' & E1' & E2' & E3'). congruence. Qed.

  Lemma graph_rep_equal l pg pg' : graph_rep X S G l pg -> graph_rep X S G l pg' -> json_wf (JObj l) ->
    graph_equal G pg pg'.
  Proof.
    intros H H' Hwf. exists (both (designates G (pg_registries pg)) (designates G (pg_registries pg'))).
    split; [|split; [|split]].
    - intros a a' b (n & id & H1 & H2) (n' & id' & H1' & H2').
      destruct (rep_designates _ _ _ _ _ H' H2) as (i & E1 & E2 & E3).
      destruct (rep_designates _ _ _ _ _ H' H2') as (i' & E1' & E2' & E3').
      assert (n = n' /\ id = id') as [<- <-] by (split; congruence).
      eapply designates_fun; eassumption.
    - intros a b b' (n & id & H1 & H2) (n' & id' & H1' & H2').
      destruct (rep_designates _ _ _ _ _ H H1) as (i & E1 & E2 & E3).
      destruct (rep_designates _ _ _ _ _ H H1') as (i' & E1' & E2' & E3').
      assert (n = n' /\ id = id') as [<- <-] by (split; congruence).
      eapply designates_fun; eassumption.
    - eapply fields_rep_eq; [apply H|apply H'].
    - intros c Hc. destruct H as [_ Hr], H' as [_ Hr'].
      destruct (Hr c Hc) as (reg & E & Hm), (Hr' c Hc) as (reg' & E' & Hm').
      exists reg, reg'. split; [exact E|]. split; [exact E'|].
      destruct Hm as [[El ->]|(m & El & HF)], Hm' as [[El' ->]|(m' & El' & HF')]; try congruence; [constructor|].
      assert (m' = m) by congruence. subst m'.
      assert (Hnd : NoDup (keys m)) by (eapply json_wf_obj; eassumption).
      assert (Hkeys : forall m (reg : list (str * addr)) (Q : str * jval -> str * addr -> Prop),
                 Forall2 (fun kv ka => fst kv = fst ka /\ Q kv ka) m reg -> keys reg = keys m).
      { clear. intros m reg Q HF. induction HF as [|[k v] [k' a] m reg [Hk _] _ IH]; [reflexivity|].
        unfold keys in *. simpl in *. congruence. }
      assert (Hn : exists n, find_class G n = Some c).
      { destruct Hregs as (Hnames & _). exists (c_name c). unfold find_class. clear -Hnames Hc.
        induction (g_classes G) as [|d cs IH]; [destruct Hc|]. simpl in *.
        inversion Hnames as [|? ? Hni Hnd]; subst.
        destruct Hc as [->|Hc]; [rewrite str_eqb_refl; reflexivity|].
        destruct (str_eqb (c_name d) (c_name c)) eqn:Ed; [|auto].
        apply str_eqb_eq in Ed. exfalso. apply Hni. rewrite Ed. apply in_map. exact Hc. }
      destruct Hn as [n Hn].
      assert (HD : forall id a, In (id, a) reg -> designates G (pg_registries pg) n id a).
      { intros id a Hi. exists c, reg. split; [exact Hn|]. split; [exact E|].
        apply In_lookup; [|exact Hi]. rewrite (Hkeys _ _ _ HF). exact Hnd. }
      assert (HD' : forall id a, In (id, a) reg' -> designates G (pg_registries pg') n id a).
      { intros id a Hi. exists c, reg'. split; [exact Hn|]. split; [exact E'|].
        apply In_lookup; [|exact Hi]. rewrite (Hkeys _ _ _ HF'). exact Hnd. }
      clear Hnd E E' El El'. revert reg' HF' HD'. 
      induction HF as [|[k v] [k1 a] m reg (Hk & o & i & Ho & H1 & H2 & H3 & H4) _ IH];
        intros reg' HF' HD'; inversion HF' as [|? [k2 b] ? reg2 (Hk' & o' & j & Ho' & H1' & H2' & H3' & H4') HF2]; subst;
        constructor.
      + simpl in *. subst k1 k2. split; [reflexivity|]. split.
        * exists n, k. split; [apply HD|apply HD']; left; reflexivity.
        * exists i, j. repeat split; try congruence.
          assert (o' = o) by congruence. subst o'. eapply fields_rep_eq; eassumption.
      + apply IH; [intros id b' Hi; apply HD; right; exact Hi|exact HF2|intros id b' Hi; apply HD'; right; exact Hi].
  Qed.

  (** *** What is written conforms and represents the graph *)

  Section Canon.
    Variable pg : pygraph.
    Let heap := pg_heap pg.
    Let P := designates G (pg_registries pg).
    Let known_ (n id : str) : Prop := exists a, P n id a.

    Lemma canon_scalar t x v : scalar t = true -> py_canon X S t x -> scalar_wrote X t x v ->
      py_leaf X S t v /\ scalar_rep X S t v x.
    Proof.
      intros Hs Hc Hw. destruct t; try discriminate Hs; cbn -[float_of_Z] in Hc, Hw |- *.
      - destruct Hc as [b0 ->]. cbn in Hw. subst v. split; eauto.
      - destruct Hc as (z & Hr & [->|[[-> ->]|[-> ->]]]); cbn in Hw; subst v; (split; [|eauto]).
        + exists z. split; [left; reflexivity|exact Hr].
        + exists 1%Z. split; [right; left; auto|exact Hr].
        + exists 0%Z. split; [right; right; auto|exact Hr].
      - destruct Hc as (f & -> & Hr). cbn in Hw. subst v. split; left; eauto.
      - destruct Hc as (s & -> & Hm). cbn in Hw. subst v. split; eauto.
      - destruct Hc as (s & Hm & Hc). destruct (pathlib S) eqn:Ep.
        + destruct Hc as [-> Hx]. cbn in Hw. subst v. split; [eauto|]. exists s. rewrite Hx. auto.
        + subst x. cbn in Hw. subst v. split; eauto.
      - destruct Hc as (d & d' & -> & Hx & Hd), Hw as (d0 & [= <-] & ->).
        split; [eexists; split; [reflexivity|congruence]|]. exists (x_strftime X format d), d'.
        split; [reflexivity|]. split; [exact Hx|congruence].
      - destruct Hc as (d & d' & -> & Hx & Hd), Hw as (d0 & [= <-] & ->).
        split; [eexists; split; [reflexivity|congruence]|]. exists (x_strftime X format d), d'.
        split; [reflexivity|]. split; [exact Hx|congruence].
      - destruct Hc as (d & -> & Hx), Hw as (d0 & [= <-] & ->).
        split; [eexists; split; [reflexivity|congruence]|]. exists (x_strftime X format d), d.
        split; [reflexivity|]. split; [exact Hx|congruence].
      - destruct Hc as (s & Hc). destruct (pytz S) eqn:Ep.
        + destruct Hc as [-> Hx]. cbn in Hw. subst v.
          split; [eexists; split; [reflexivity|congruence]|]. exists s. split; [reflexivity|]. eauto.
        + subst x. cbn in Hw. subst v.
          split; [eexists; split; [reflexivity|discriminate]|]. exists s. auto.
      - destruct Hc as (us & -> & Hx), Hw as (us0 & [= <-] & ->).
        split; [eexists; split; [reflexivity|congruence]|]. exists (x_dur_to X us), us. auto.
    Qed.

    Lemma registered_designates n a i : registered G pg n a -> nth_error heap a = Some i -> P n (i_id i) a.
    Proof.
      intros (c & reg & j & E1 & E2 & E3 & E4 & E5) Ei. unfold heap in Ei. rewrite E3 in Ei.
      injection Ei as <-. exists c, reg. auto.
    Qed.

    Definition canon_ok (x : pyval) : Prop := forall t v,
      sat G (py_canon X S) (registered G pg) t x -> wrote X G heap t x v ->
      conforms G (py_leaf X S) known_ t v /\ rep X S G P t v x /\ v <> JNull.

    Lemma canon_fields ps attrs l : NoDup (map (fun p => attr (p_name p)) ps) ->
      Forall (fun kx => canon_ok (snd kx)) attrs ->
      attrs_sat G (py_canon X S) (registered G pg) ps attrs ->
      fields_wrote X G heap ps attrs l ->
      fields_conform G (py_leaf X S) known_ ps l /\ fields_rep X S G P ps l attrs.
    Proof.
      intros Hnd Hok [Hk Hs] Hw.
      assert (H : forall p, In p ps -> exists x, lookup (attr (p_name p)) attrs = Some x /\
                ((absent (p_json p) l /\ p_optional p = true /\ x = PVNone) \/
                 (exists v, lookup (p_json p) l = Some v /\ v <> JNull /\
                    conforms G (py_leaf X S) known_ (p_type p) v /\ rep X S G P (p_type p) v x))).
      { intros p Hp. destruct (Hs p Hp) as (x & Ex & Hx), (Hw p Hp) as (x' & Ex' & Hx').
        assert (x' = x) by congruence. subst x'. exists x. split; [exact Ex|].
        destruct Hx as [[-> Ho]|Hx].
        - left. destruct Hx' as [[_ Hn]|[Hn _]]; [|congruence].
          split; [left; apply lookup_None; exact Hn|]. auto.
        - right. destruct Hx' as [[-> _]|(_ & v & Ev & Hv)].
          { inversion Hx; congruence. }
          rewrite Forall_forall in Hok. apply lookup_In in Ex.
          destruct (Hok _ Ex _ _ Hx Hv) as (H1 & H2 & H3). exists v. auto. }
      split.
      - intros p Hp. destruct (H p Hp) as (x & _ & [(Ha & Ho & _)|(v & E & Hn & Hc & _)]); [left; auto|right].
        exists v. auto.
      - clear Hs Hw Hok. unfold fields_rep. revert attrs Hk H. induction ps as [|p ps IH]; intros attrs Hk H.
        + destruct attrs; [constructor|discriminate].
        + destruct attrs as [|[k x] attrs]; [discriminate|]. unfold keys in Hk. simpl in Hk.
          injection Hk as Ek Hk. inversion Hnd as [|? ? Hni Hnd']; subst.
          constructor.
          * split; [reflexivity|]. destruct (H p (or_introl eq_refl)) as (x' & Ex & Hx).
            simpl in Ex. rewrite str_eqb_refl in Ex. injection Ex as <-. simpl.
            destruct Hx as [(Ha & Ho & ->)|(v & E & Hn & Hc & Hr)]; [left; auto|right; eauto].
          * apply IH; [exact Hnd'|exact Hk|]. intros q Hq.
            destruct (H q (or_intror Hq)) as (x' & Ex & Hx). exists x'. split; [|exact Hx].
            simpl in Ex. destruct (str_eqb (attr (p_name q)) (attr (p_name p))) eqn:Eq; [|exact Ex].
            apply str_eqb_eq in Eq. exfalso. apply Hni. rewrite <- Eq.
            apply (in_map (fun p => attr (p_name p))). exact Hq.
    Qed.

    Lemma canon_value x : canon_ok x.
    Proof.
      assert (Hsc : forall t x v, scalar t = true -> py_canon X S t x -> wrote X G heap t x v ->
                conforms G (py_leaf X S) known_ t v /\ rep X S G P t v x /\ v <> JNull).
      { intros t y v Hs Hc Hw. inversion Hw as [? ? ? _ Hw'| | | |]; subst; try discriminate Hs.
        destruct (canon_scalar _ _ _ Hs Hc Hw') as [H1 H2].
        split; [apply conf_scalar; assumption|]. split; [apply rep_scalar; assumption|].
        intros ->. clear -H1 Hs. destruct t; try discriminate Hs; cbn -[float_of_Z] in H1;
          repeat match goal with
               | H : exists _, _ |- _ => destruct H
               | H : _ /\ _ |- _ => destruct H
               | H : _ \/ _ |- _ => destruct H
               | H : int_value _ _ |- _ => destruct H as [H|[[H ?]|[H ?]]]
               end; discriminate. }
      induction x as [x Hx|l IH|l IH|n l IH] using pyval_ind'; intros t v H Hw;
        inversion H as [? ? Ht HS HN|? ? ? ? Hz Hl|? ? Hn Hl|? ? Hr|? e ? He Hk Hp]; subst;
        try (eapply Hsc; eassumption); try contradiction.
      - inversion Hw as [? ? ? Hs' _| | |? ? i Ei|]; subst; [discriminate Hs'|].
        assert (Hd := registered_designates _ _ _ Hr Ei).
        split; [apply conf_ref; exists a; exact Hd|]. split; [apply rep_ref; exact Hd|discriminate].
      - inversion Hw as [? ? ? Hs' _|? ? ? ? vs HF| | |]; subst; [discriminate Hs'|].
        assert (HF' : Forall2 (fun x v => conforms G (py_leaf X S) known_ t0 v /\
                        rep X S G P t0 v x /\ v <> JNull) l vs).
        { clear H Hw Hz. induction HF as [|x v l vs Hv _ IHl]; constructor.
          - inversion IH as [|? ? Hx _]; subst. apply Hx; [apply Hl; left; reflexivity|exact Hv].
          - inversion IH; subst. apply IHl; [assumption|]. intros y Hy. apply Hl. right. exact Hy. }
        split; [|split; [|discriminate]].
        + apply conf_array; [rewrite <- (Forall2_length _ _ _ HF); exact Hz|].
          clear -HF'. induction HF' as [|x v l vs (Hc & _) _ IH]; intros w Hi; [destruct Hi|].
          destruct Hi as [<-|Hi]; auto.
        + apply rep_array. clear -HF'. induction HF' as [|x v l vs (_ & Hc & _) _ IH]; constructor; assumption.
      - inversion Hw as [? ? ? Hs' _| |? ? vs HF| |]; subst; [discriminate Hs'|].
        assert (HF' : Forall2 (fun x v => fst x = fst v /\ conforms G (py_leaf X S) known_ t0 (snd v) /\
                        rep X S G P t0 (snd v) (snd x)) l vs).
        { clear H Hw Hn. induction HF as [|[k x] v l vs [Hk Hv] _ IHl]; constructor.
          - inversion IH as [|? ? Hx _]; subst. split; [exact Hk|].
            destruct (Hx t0 (snd v) (Hl k x (or_introl eq_refl)) Hv) as (H1 & H2 & _). auto.
          - inversion IH; subst. apply IHl; [assumption|]. intros k' y Hy. apply (Hl k'). right. exact Hy. }
        split; [|split; [|discriminate]].
        + apply conf_map. clear -HF'. induction HF' as [|x [k v] l vs (_ & Hc & _) _ IH]; intros k' w Hi; [destruct Hi|].
          destruct Hi as [[= <- <-]|Hi]; eauto.
        + apply rep_map. clear -HF'. induction HF' as [|x v l vs (? & _ & Hc) _ IH]; constructor; auto.
      - inversion Hw as [? ? ? Hs' _| | | |? e' ? o He' Hnd Hkeys Hf]; subst; [discriminate Hs'|].
        rewrite He in He'. injection He' as <-.
        destruct (canon_fields (e_props e) l o) as [H1 H2].
        + apply Hdistinct. eapply embed_composite. exact He.
        + exact IH.
        + split; [exact Hk|exact Hp].
        + exact Hf.
        + split; [eapply conf_embed; eassumption|]. split; [eapply rep_embed; eassumption|discriminate].
    Qed.

    Lemma canon_all (l : list (str * pyval)) : Forall (fun kx => canon_ok (snd kx)) l.
    Proof. apply Forall_forall. intros kx _. apply canon_value. Qed.
  End Canon.

  Lemma canon_kind t x : py_canon X S t x -> py_kind S t x.
  Proof.
    destruct t; cbn -[float_of_Z]; try contradiction;
      intros H; repeat match goal with
               | H : exists _, _ |- _ => destruct H
               | H : _ /\ _ |- _ => destruct H
               | H : _ \/ _ |- _ => destruct H
               end; subst; eauto.
    - exists x0. destruct (pathlib S); [apply H0|exact H0].
    - exists x0. destruct (pytz S); [apply H|exact H].
  Qed.

  Lemma registered_alloc pg n a : registered G pg n a -> allocated pg n a.
  Proof. intros (c & reg & i & E1 & E2 & E3 & _). exists i. exact E3. Qed.

  Lemma attrs_sat_typed pg ps attrs : attrs_sat G (py_canon X S) (registered G pg) ps attrs ->
    attrs_sat G (py_kind S) (allocated pg) ps attrs.
  Proof.
    intros [Hk Hp]. split; [exact Hk|]. intros p Hi. destruct (Hp p Hi) as (x & E & Hx).
    exists x. split; [exact E|]. destruct Hx as [Hx|Hx]; [left; exact Hx|right].
    eapply sat_mono; [exact canon_kind|exact (registered_alloc pg)|exact Hx].
  Qed.

  Lemma canon_typed pg : graph_sat X G (py_canon X S) pg -> graph_typed S G pg /\ ~ inconsistent G pg.
  Proof.
    intros (Ha & Hr & Hi). split.
    - split; [apply attrs_sat_typed; exact Ha|]. intros c Hc. destruct (Hr c Hc) as (reg & E & Hnd & H).
      exists reg. split; [exact E|]. split; [exact Hnd|]. intros id a Hia.
      destruct (H id a Hia) as (i & Ei & _). exists i. split; [exact Ei|].
      apply attrs_sat_typed. eapply Hi; eassumption.
    - intros (c & reg & id & a & i & Hc & E & Hia & Ei & Hne).
      destruct (Hr c Hc) as (reg' & E' & _ & H). rewrite E in E'. injection E' as <-.
      destruct (H id a Hia) as (j & Ej & _ & Hid). congruence.
  Qed.

  Hypothesis Hlower : lower_names G.
  Hypothesis Hjson : json_distinct G.

  Lemma wrote_conforms pg l : graph_sat X G (py_canon X S) pg -> graph_wrote X G pg l ->
    graph_conforms G (py_leaf X S) (py_id_ok X) py_key (JObj l) /\ graph_rep X S G l pg.
  Proof.
    intros (Ha & Hr & Hi) (Hnd & Hkeys & Hf & Hc).
    assert (Hlist : forall n id, (exists a, designates G (pg_registries pg) n id a) -> listed G py_key l n id).
    { intros n id (a & c & reg & E1 & E2 & E3).
      destruct (find_class_In _ _ _ E1) as [Hin _].
      destruct (Hc c Hin) as (reg' & E' & H). rewrite E2 in E'. injection E' as <-.
      destruct H as [[-> _]|(_ & m & Em & HF)]; [discriminate|].
      exists c, m. split; [exact E1|]. split; [exact Em|].
      apply lookup_In in E3. destruct (Forall2_In_l _ _ _ _ HF E3) as ([k v] & Hin' & Hk & _).
      simpl in Hk. subst k. apply (in_map fst) in Hin'. exact Hin'. }
    assert (Hfc : forall ps o, fields_conform G (py_leaf X S) (fun n id => exists a,
                     designates G (pg_registries pg) n id a) ps o ->
                   fields_conform G (py_leaf X S) (listed G py_key l) ps o).
    { intros ps o H p Hp. destruct (H p Hp) as [H'|(w & Ew & Hw & Hcw)]; [left; exact H'|right].
      exists w. split; [exact Ew|]. split; [exact Hw|].
      eapply conforms_mono; [intros ? ? HH; exact HH|exact Hlist|exact Hcw]. }
    destruct (canon_fields pg (g_props G) (pg_attrs pg) l (Hdistinct _ (graph_composite G))
                (canon_all pg _) Ha Hf) as [Hg1 Hg2].
    assert (Hinst : forall c reg m, In c (g_classes G) ->
       lookup (attr (c_plural c)) (pg_registries pg) = Some reg ->
       Forall2 (fun ka kv => fst ka = fst kv /\
              exists i, nth_error (pg_heap pg) (snd ka) = Some i /\ i_id i = fst ka /\
                        instance_wrote X G (pg_heap pg) c i (snd kv)) reg m ->
       Forall2 (fun kv ka => fst kv = fst ka /\
             exists o i, snd kv = JObj o /\ nth_error (pg_heap pg) (snd ka) = Some i /\
               i_class i = c_name c /\ i_id i = fst kv /\
               fields_rep X S G (designates G (pg_registries pg)) (c_props c) o (i_attrs i)) m reg /\
       forall id v, In (id, v) m -> instance_conforms G (py_leaf X S) (py_id_ok X) py_key l c id v).
    { intros c reg m Hin E HF.
      assert (Hstep : forall id a, In (id, a) reg -> exists i, nth_error (pg_heap pg) a = Some i /\
                 i_class i = c_name c /\ matches X (c_id_pattern c) id /\
                 attrs_sat G (py_canon X S) (registered G pg) (c_props c) (i_attrs i)).
      { intros id a Hia. destruct (Hr c Hin) as (reg' & E' & _ & H). rewrite E in E'. injection E' as <-.
        destruct (H id a Hia) as (i & Ei & Hcl & _). exists i. split; [exact Ei|]. split; [exact Hcl|].
        eapply Hi; eassumption. }
      clear E. induction HF as [|[id a] [k v] reg m (Hk & i & Ei & Hid & o & Ho & Hno & Hko & Hfo) _ IH].
      - split; [constructor|intros ? ? []].
      - simpl in *. subst k. destruct IH as [IH1 IH2]; [intros id' a' H; apply Hstep; right; exact H|].
        destruct (Hstep id a (or_introl eq_refl)) as (i' & Ei' & Hcl & Hm & Hs).
        assert (i' = i) by congruence. subst i'.
        destruct (canon_fields pg (c_props c) (i_attrs i) o (Hdistinct _ (class_composite G c Hin))
                    (canon_all pg _) Hs Hfo) as [H1 H2].
        split.
        + constructor; [|exact IH1]. split; [reflexivity|]. exists o, i. simpl. auto.
        + intros id' v' [[= <- <-]|Hin']; [|auto]. split; [exact Hm|]. exists o. auto. }
    split.
    - exists l. split; [reflexivity|]. split; [|apply Hfc; exact Hg1].
      intros c Hin. destruct (Hc c Hin) as (reg & E & [[-> Hn]|(Hne & m & Em & HF)]).
      + left. apply lookup_None. exact Hn.
      + right. exists m. split; [exact Em|]. eapply Hinst; eassumption.
    - split; [exact Hg2|]. intros c Hin. destruct (Hc c Hin) as (reg & E & [[-> Hn]|(Hne & m & Em & HF)]).
      + exists []. split; [exact E|]. left. split; [apply lookup_None; exact Hn|reflexivity].
      + exists reg. split; [exact E|]. right. exists m. split; [exact Em|]. eapply Hinst; eassumption.
  Qed.

  Lemma round_trip pg : graph_sat X G (py_canon X S) pg ->
    exists v pg', serialize_graph X S G pg = Ok v /\ graph_equal G pg pg' /\
      forall ref es, (0 < py_cap es)%Z -> py_values es = [] ->
        graph_from X S G v ref es = Ok (Some pg', es).
  Proof.
    intros Hs. destruct (canon_typed pg Hs) as [Ht Hc].
    destruct (serialize_graph_cases X S G Hlower Hjson pg Ht) as [[_ H]|(l & El & _ & Hw & Hwf)]; [contradiction|].
    destruct (wrote_conforms pg l Hs Hw) as [Hconf Hrep].
    destruct (conforms_graph_from X S G Hdistinct Hregs (fun _ => True) l Hwf (all_ints_True _) Hconf) as (pg' & _ & Hrep' & Hf).
    exists (JObj l), pg'. split; [exact El|]. split; [|exact Hf].
    eapply graph_rep_equal; eassumption.
  Qed.
End Py.
