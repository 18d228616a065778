(** Whatever the parsing of a document returns, the document describes it. *)
From Coq Require Import String List Arith NArith ZArith QArith Bool Lia Permutation Floats.SpecFloat.
From Verif Require Import Base M_Naming M_Schema M_Dec M_Strftime M_Validate S_Conform P_Naming S_Validate P_Validate
  P_ValidateType P_ValidateDoc P_Parse.
Import ListNotations.
Open Scope list_scope.
Local Open Scope nat_scope.

Section Inverse.
  Variable num : jval -> option Z -> Prop.
  Variables (re_ok : str -> bool) (ordered : bool).

  Lemma int_inv l k o : NoDup (keys l) -> numbers_read num l -> maybe l k a_number ->
    optional int_of (s_ k) l = Ok o -> stated l k num None o.
  Proof.
    intros Hn Hr. rewrite (maybe_lookup l Hn). unfold optional. intros H.
    destruct (lookup (s_ k) l) as [v|] eqn:E.
    - destruct (int_of v) as [z|] eqn:Ez; [|discriminate]. intros [= <-]. left. exists v. apply lookup_In in E.
      split; [exact E|]. eapply Hr; eauto.
    - intros [= <-]. right. split; [now apply no_member_lookup | reflexivity].
  Qed.
  Lemma bounds_inv l b : NoDup (keys l) -> numbers_read num l -> maybe l "minimum" a_number -> maybe l "maximum" a_number ->
    maybe l "exclusive_minimum" a_boolean -> maybe l "exclusive_maximum" a_boolean ->
    bounds_of l = Ok b -> bounds_described num l b.
  Proof.
    intros Hn Hr H1 H2 H3 H4. unfold bounds_of.
    destruct (optional int_of (s_ "minimum") l) as [mn|] eqn:E1; [|discriminate]. cbn [bind].
    destruct (optional int_of (s_ "maximum") l) as [mx|] eqn:E2; [|discriminate]. cbn [bind]. intros [= <-].
    unfold bounds_described. cbn [b_min b_exmin b_max b_exmax].
    repeat split; [now apply int_inv | now apply flag_ok | now apply int_inv | now apply flag_ok].
  Qed.

  Section Composites.
    Variables (g : str) (cns ens : list str).
    Hypothesis names_ok : forall n, In n (g :: cns ++ ens) -> ~ In n NONCOMPOSITE.
    Let names := g :: cns ++ ens.

    Lemma type_of_inv v : forall top t, json_wf v -> type_ok re_ok names top v ->
      (forall w z, part w v -> a_number w -> int_of w = Ok z -> num w (Some z)) ->
      type_of re_ok cns ens v = Ok t -> describes num cns ens v t.
    Proof.
      induction v as [| | | | |l IH|l IH] using jval_ind'; intros top t Hw Hok Hnum; try (inversion Hok; fail).
      apply wf_obj in Hw. destruct Hw as [Hn Hw]. rewrite type_of_eq.
      set (values := match lookup (s_ "values") l with Some _ => _ | None => _ end).
      assert (Hv : forall x u, In (s_ "values", x) l -> type_ok re_ok names false x -> values = Ok u -> describes num cns ens x u).
      { intros x u Hx Hxok Hu. rewrite Forall_forall in IH. apply (IH (s_ "values", x) Hx false); cbn [snd]; eauto.
        - intros w z H. apply Hnum. eapply part_object; eauto.
        - subst values. now rewrite (In_lookup _ _ _ Hn Hx) in Hu. }
      assert (Hr : numbers_read num l).
      { intros k w z H. apply Hnum. eapply part_object; [exact H | constructor]. }
      assert (Ht : forall t, In (s_ "type", JStr t) l ->
        (do t <- M_Validate.get (s_ "type") l; do type <- text t; parse_by re_ok cns ens type l values) = parse_by re_ok cns ens t l values).
      { intros u H. rewrite (get_ok l Hn _ _ H). reflexivity. }
      inversion Hok as [u l' H1 H2 H3 H4 El | u l' H1 H2 H3 H4 H5 H6 H7 El | u l' H1 H2 H3 H4 H5 El |
          u l' H1 H2 H3 H4 H5 El | l' v H1 H2 H3 H4 H5 H6 H7 H8 El | l' v H1 H2 H3 H4 H5 El | n l' H1 H2 H3 El]; subst l'.
      - rewrite (Ht _ H2). cbn [In] in H1. repeat destruct H1 as [<- | H1]; [.. | contradiction];
          (intros E; injection E as <-; constructor; exact H2).
      - rewrite (Ht _ H2).
        assert (A : maybe l "minimum" a_number /\ maybe l "maximum" a_number).
        { destruct H1 as [(_ & A & B) | (_ & A & B)]; [|auto].
          split; intros w Hw'; [destruct (A w Hw') as (z & ->) | destruct (B w Hw') as (z & ->)]; left; eauto. }
        destruct H1 as [(-> & _ & _) | (-> & _ & _)].
        + change ((do b <- bounds_of l; Ok (TInt b)) = Ok t -> describes num cns ens (JObj l) t).
          destruct (bounds_of l) as [b|] eqn:Eb; [|discriminate]. intros E; injection E as <-.
          constructor; [exact H2 | apply bounds_inv; tauto].
        + change ((do b <- bounds_of l; Ok (TFloat b)) = Ok t -> describes num cns ens (JObj l) t).
          destruct (bounds_of l) as [b|] eqn:Eb; [|discriminate]. intros E; injection E as <-.
          constructor; [exact H2 | apply bounds_inv; tauto].
      - rewrite (Ht _ H2). destruct (compile_ok l Hn re_ok "pattern" H5) as (p & Ep & Hp).
        cbn [In] in H1. repeat destruct H1 as [<- | H1]; [.. | contradiction].
        + change ((do p <- optional (compile re_ok) (s_ "pattern") l; Ok (TStr p)) = Ok t -> describes num cns ens (JObj l) t).
          rewrite Ep. intros E; injection E as <-. constructor; auto.
        + change ((do p <- optional (compile re_ok) (s_ "pattern") l; Ok (TPath p)) = Ok t -> describes num cns ens (JObj l) t).
          rewrite Ep. intros E; injection E as <-. constructor; auto.
      - rewrite (Ht _ H1). assert (H6 : maybe l "format" (a_text any)).
        { intros v Hv'. destruct (H4 v Hv') as (p & -> & _). exists p. split; [reflexivity | exact I]. }
        cbn [In] in H5. repeat destruct H5 as [<- | H5]; [.. | contradiction].
        + destruct (text_or_ok l Hn (s_ "%Y-%m-%d") "format" H6) as (f & Ef & Hf).
          change ((do f <- text_or (s_ "%Y-%m-%d") (s_ "format") l; Ok (TDate f)) = Ok t -> describes num cns ens (JObj l) t).
          rewrite Ef. intros E; injection E as <-. constructor; auto.
        + destruct (text_or_ok l Hn (s_ "%H:%M:%S") "format" H6) as (f & Ef & Hf).
          change ((do f <- text_or (s_ "%H:%M:%S") (s_ "format") l; Ok (TTime f)) = Ok t -> describes num cns ens (JObj l) t).
          rewrite Ef. intros E; injection E as <-. constructor; auto.
        + destruct (text_or_ok l Hn (s_ "%Y-%m-%dT%H:%M:%SZ") "format" H6) as (f & Ef & Hf).
          change ((do f <- text_or (s_ "%Y-%m-%dT%H:%M:%SZ") (s_ "format") l; Ok (TDatetime f)) = Ok t -> describes num cns ens (JObj l) t).
          rewrite Ef. intros E; injection E as <-. constructor; auto.
      - rewrite (Ht _ H1).
        assert (Hs : forall k, maybe l k a_size -> maybe l k a_number).
        { intros k H w Hw'. destruct (H w Hw') as (z & -> & _). left. eauto. }
        change ((do vs <- values; do mn <- optional int_of (s_ "minimum_size") l; do mx <- optional int_of (s_ "maximum_size") l;
                 Ok (TArray vs mn mx)) = Ok t -> describes num cns ens (JObj l) t).
        destruct values as [vs|] eqn:Ev; [|discriminate]. cbn [bind].
        destruct (optional int_of (s_ "minimum_size") l) as [mn|] eqn:E1; [|discriminate]. cbn [bind].
        destruct (optional int_of (s_ "maximum_size") l) as [mx|] eqn:E2; [|discriminate]. cbn [bind].
        intros E; injection E as <-. eapply d_array; eauto using int_inv.
      - rewrite (Ht _ H1). change ((do vs <- values; Ok (TMap vs)) = Ok t -> describes num cns ens (JObj l) t).
        destruct values as [vs|] eqn:Ev; [|discriminate]. cbn [bind].
        intros E; injection E as <-. eapply d_map; eauto.
      - rewrite (Ht _ H2). unfold parse_by.
        assert (Hne : forall t, In (s_ t) NONCOMPOSITE -> str_eqb n (s_ t) = false).
        { intros u H. apply str_eqb_neq. intros ->. apply (names_ok (s_ u)); auto. }
        rewrite !Hne by (rewrite NONCOMPOSITE_eq; apply in_map; cbn; tauto).
        destruct (mem n cns) eqn:Ec; [intros E; injection E as <-; apply d_class; [exact H2 | now apply mem_In]|].
        destruct (mem n ens) eqn:Ee; [intros E; injection E as <-; apply d_embed; [exact H2 | now apply mem_In] | discriminate].
    Qed.

    (** The parts of the document *)
    Definition read (v : jval) : Prop :=
      json_wf v /\ (forall w z, part w v -> a_number w -> int_of w = Ok z -> num w (Some z)).
    Lemma read_member l k v : read (JObj l) -> In (k, v) l -> read v.
    Proof.
      intros (H1 & H4) Hin. split; [apply wf_obj in H1; apply (proj2 H1 _ _ Hin)|].
      intros w z Hw. apply H4. eapply part_object; eauto.
    Qed.
    Lemma read_element l v : read (JArr l) -> In v l -> read v.
    Proof.
      intros (H1 & H4) Hin. split; [inversion H1; subst; auto|]. intros w z Hw. apply H4. eapply part_array; eauto.
    Qed.

    Lemma own_properties_inv ref l reserved ps : read (JObj l) ->
      maybe l "properties" (properties_ok re_ok ordered names reserved) ->
      own_properties re_ok ordered cns ens ref l = Ok ps -> describes_properties num ordered cns ens ref l ps.
    Proof.
      intros Hread H. assert (Hw := proj1 Hread). apply wf_obj in Hw. destruct Hw as [Hn Hw].
      rewrite (maybe_lookup l Hn) in H. unfold own_properties.
      destruct (lookup (s_ "properties") l) as [v|] eqn:E.
      2:{ intros [= <-]. left. split; [now apply no_member_lookup | reflexivity]. }
      apply lookup_In in E. assert (Hrv := read_member _ _ _ Hread E). destruct H as (ms & -> & Hms).
      unfold properties_of. cbn [fields bind]. intros Eps. apply mapM_Ok in Eps. right. exists ms, (item_list ordered ms).
      split; [exact E|]. split; [apply item_list_perm|]. split; [intros ->; reflexivity|].
      assert (Hin : forall kp, In kp (item_list ordered ms) -> In kp ms).
      { intros kp H. eapply Permutation_in; [symmetry; apply item_list_perm | exact H]. }
      clear E. revert Eps Hin. generalize (item_list ordered ms). intros its HF.
      induction HF as [|(k, p) q its qs Hq HF IH]; intros Hin; [constructor|]. constructor; [|apply IH; intros kp H; apply Hin; now right].
      assert (Hin' := Hin _ (or_introl eq_refl)). clear IH HF Hin.
      assert (Hrp := read_member _ _ _ Hrv Hin'). destruct (Hms _ _ Hin') as (_ & _ & m & -> & A & B & C & _ & _ & T).
      assert (Hwp := proj1 Hrp). assert (Hwp' := Hwp). apply wf_obj in Hwp. destruct Hwp as [Hnm Hwm]. cbn [fields bind] in Hq.
      destruct A as (d & Hd & t & -> & _). rewrite (get_ok m Hnm _ _ Hd) in Hq. cbn [bind text] in Hq.
      destruct (text_or_ok m Hnm k "json" B) as (js & Ejs & Hjs). rewrite Ejs in Hq. cbn [bind] in Hq.
      destruct (type_of re_ok cns ens (JObj m)) as [ty|] eqn:Ety; [|discriminate]. cbn [bind] in Hq. injection Hq as <-.
      exists m. cbn [fst snd p_name p_ref p_description p_json p_optional p_type].
      repeat split; auto; [now apply flag_ok|]. eapply type_of_inv; eauto. exact (proj2 Hrp).
    Qed.

    Lemma class_of_inv ref l : json_wf (JObj l) -> class_ok re_ok ordered names (JObj l) ->
      exists c, class_of re_ok ref l = Ok c /\ In (s_ "name", JStr (c_name c)) l /\
        In (s_ "description", JStr (c_description c)) l /\
        plural_of (JObj l) (c_plural c) /\ stated l "id_pattern" is_optional_text None (c_id_pattern c) /\ c_ref c = ref.
    Proof.
      intros Hw (l' & [= <-] & _ & A & B & C & D & E). apply wf_obj in Hw. destruct Hw as [Hn Hw].
      destruct A as (n & Hname & n' & -> & _). destruct B as (d & Hd & d' & -> & _).
      destruct (compile_ok l Hn re_ok "id_pattern" D) as (pat & Epat & Hpat).
      assert (C' : maybe l "plural" (a_text any)).
      { intros x Hx. destruct (C x Hx) as (t & -> & _). exists t. split; [reflexivity | exact I]. }
      destruct (text_or_ok l Hn (plural n') "plural" C') as (pl & Epl & Hpl).
      unfold class_of. rewrite (get_ok l Hn _ _ Hname). cbn [bind text]. rewrite Epl. cbn [bind].
      rewrite (get_ok l Hn _ _ Hd). cbn [bind text]. rewrite Epat. cbn [bind].
      eexists. split; [reflexivity|]. cbn [c_name c_description c_plural c_id_pattern c_ref].
      repeat split; auto. exists l. split; [reflexivity|].
      destruct Hpl as [(v & Hv & ->) | [Hno ->]]; [now left | right]. split; [exact Hno|]. exists n'. auto.
    Qed.
    Lemma embed_of_inv ref l : json_wf (JObj l) -> embed_ok re_ok ordered names (JObj l) ->
      exists c, embed_of ref l = Ok c /\ In (s_ "name", JStr (e_name c)) l /\
        In (s_ "description", JStr (e_description c)) l /\ e_ref c = ref.
    Proof.
      intros Hw (l' & [= <-] & _ & A & B & E). apply wf_obj in Hw. destruct Hw as [Hn Hw].
      destruct A as (n & Hname & n' & -> & _). destruct B as (d & Hd & d' & -> & _).
      unfold embed_of. rewrite (get_ok l Hn _ _ Hname). cbn [bind text]. rewrite (get_ok l Hn _ _ Hd). cbn [bind text].
      eexists. split; [reflexivity|]. cbn [e_name e_description e_ref]. auto.
    Qed.
  End Composites.

  Lemma Forall2_join {A B C} (R : A -> B -> Prop) (Q : A -> C -> Prop) (S : C -> B -> Prop) l a b :
    Forall2 R l a -> Forall2 Q l b -> (forall x y z, R x y -> Q x z -> S z y) -> Forall2 S b a.
  Proof.
    intros H. revert b. induction H as [|x y l a Hxy H IH]; intros b Hb HS; inversion Hb; subst; constructor; eauto.
  Qed.

  Theorem schema_of_inv v ref s : json_wf v -> document re_ok ordered v ->
    (forall w z, part w v -> a_number w -> int_of w = Ok z -> num w (Some z)) ->
    schema_of re_ok ordered v ref = Ok s -> describes_schema num ordered ref v s.
  Proof.
    intros Hw0 Hdoc Hnum.
    destruct Hdoc as [l n classes embeds cns ens Hkeys Horder Hname Hcap Hdesc Hcpp Hgo Hpy Hcl Hem Hcns Hens Hnd Hcok Heok Hprops Hpl].
    assert (Hw := Hw0). apply wf_obj in Hw. destruct Hw as [Hn Hw].
    assert (Hread : read (JObj l)) by (split; assumption).
    assert (Hfc : forall c, In c classes -> read c).
    { intros c Hc. destruct (list_part _ _ _ _ Hcl Hc) as (a & Ha & Hx).
      eapply read_element; [|exact Hx]. eapply read_member; eauto. }
    assert (Hfe : forall c, In c embeds -> read c).
    { intros c Hc. destruct (list_part _ _ _ _ Hem Hc) as (a & Ha & Hx).
      eapply read_element; [|exact Hx]. eapply read_member; eauto. }
    assert (Hnames : forall x, In x (n :: cns ++ ens) -> ~ In x NONCOMPOSITE).
    { intros x Hx. apply capital_not_noncomposite. destruct Hx as [<- | Hx]; [exact Hcap|].
      apply in_app_iff in Hx. destruct Hx as [Hx | Hx].
      - apply (Forall2_In_right _ _ _ Hcns) in Hx. destruct Hx as (c & Hc & m & -> & Hm).
        destruct (Hcok _ Hc) as (m' & [= <-] & _ & (y & Hy & t & -> & Ht) & _).
        assert (Hwc := proj1 (Hfc _ Hc)). apply wf_obj in Hwc. assert (E := unique _ (proj1 Hwc) _ _ _ Hm Hy).
        injection E as ->. now apply lax_identifier_starts.
      - apply (Forall2_In_right _ _ _ Hens) in Hx. destruct Hx as (c & Hc & m & -> & Hm).
        destruct (Heok _ Hc) as (m' & [= <-] & _ & (y & Hy & t & -> & Ht) & _).
        assert (Hwc := proj1 (Hfe _ Hc)). apply wf_obj in Hwc. assert (E := unique _ (proj1 Hwc) _ _ _ Hm Hy).
        injection E as ->. exact Ht. }
    destruct Hdesc as (d & Hd & d' & -> & _).
    assert (Ecl : elements (s_ "classes") l = Ok classes) by now apply elements_iff.
    assert (Eem : elements (s_ "embeds") l = Ok embeds) by now apply elements_iff.
    unfold schema_of. cbn [fields bind]. rewrite (text_at_ok l Hn _ _ Hname). cbn [bind].
    rewrite (text_at_ok l Hn _ _ Hd). cbn [bind]. rewrite Ecl. cbn [bind].
    (* the classes *)
    set (R := fun (ix : nat * jval) (c : cls) => exists fs, snd ix = JObj fs /\
      class_of re_ok (nth_ref ref (s_ "classes") (fst ix)) fs = Ok c /\ NoDup (keys fs) /\
      In (s_ "name", JStr (c_name c)) fs /\ In (s_ "description", JStr (c_description c)) fs /\
      plural_of (JObj fs) (c_plural c) /\ stated fs "id_pattern" is_optional_text None (c_id_pattern c) /\
      c_ref c = nth_ref ref (s_ "classes") (fst ix)).
    destruct (choose R (enumerate classes)) as (xs & HR).
    { intros (i, c) Hi. apply enumerate_In, nth_error_In in Hi. assert (Hok := Hcok _ Hi). assert (Hf := Hfc _ Hi).
      destruct Hok as (fs & -> & Hok). assert (Hok' : class_ok re_ok ordered (n :: cns ++ ens) (JObj fs)) by (exists fs; auto).
      destruct (class_of_inv n cns ens (nth_ref ref (s_ "classes") i) fs (proj1 Hf) Hok') as (c & A).
      assert (Hk := proj1 Hf). apply wf_obj in Hk. exists c, fs. cbn [fst snd]. tauto. }
    assert (Ecs : mapM (fun ix : nat * jval => do fs <- fields (snd ix); class_of re_ok (nth_ref ref (s_ "classes") (fst ix)) fs)
        (enumerate classes) = Ok xs).
    { apply mapM_Ok. eapply Forall2_weaken; [|exact HR]. intros (i, c) c' (fs & E & A & _).
      cbn [fst snd] in *. subst c. exact A. }
    rewrite Ecs. cbn [bind].
    assert (Ncs : map c_name xs = cns).
    { apply (Forall2_name_unique classes); [intros c Hc; apply (proj1 (Hfc _ Hc)) | | exact Hcns].
      rewrite <- (enumerate_snd classes). apply Forall2_map_left. apply Forall2_map_right.
      eapply Forall2_weaken; [|exact HR]. intros (i, c) c' (fs & E & _ & _ & A & _).
      cbn [fst snd] in *. subst c. exists fs. auto. }
    (* the embeds *)
    rewrite Eem. cbn [bind].
    set (RE := fun (ix : nat * jval) (c : embed) => exists fs, snd ix = JObj fs /\
      embed_of (nth_ref ref (s_ "embeds") (fst ix)) fs = Ok c /\ NoDup (keys fs) /\
      In (s_ "name", JStr (e_name c)) fs /\ In (s_ "description", JStr (e_description c)) fs /\
      e_ref c = nth_ref ref (s_ "embeds") (fst ix)).
    destruct (choose RE (enumerate embeds)) as (ys & HE).
    { intros (i, c) Hi. apply enumerate_In, nth_error_In in Hi. assert (Hok := Heok _ Hi). assert (Hf := Hfe _ Hi).
      destruct Hok as (fs & -> & Hok). assert (Hok' : embed_ok re_ok ordered (n :: cns ++ ens) (JObj fs)) by (exists fs; auto).
      destruct (embed_of_inv n cns ens (nth_ref ref (s_ "embeds") i) fs (proj1 Hf) Hok') as (c & A).
      assert (Hk := proj1 Hf). apply wf_obj in Hk. exists c, fs. cbn [fst snd]. tauto. }
    assert (Ees : mapM (fun ix : nat * jval => do fs <- fields (snd ix); embed_of (nth_ref ref (s_ "embeds") (fst ix)) fs)
        (enumerate embeds) = Ok ys).
    { apply mapM_Ok. eapply Forall2_weaken; [|exact HE]. intros (i, c) c' (fs & E & A & _).
      cbn [fst snd] in *. subst c. exact A. }
    rewrite Ees. cbn [bind].
    assert (Nes : map e_name ys = ens).
    { apply (Forall2_name_unique embeds); [intros c Hc; apply (proj1 (Hfe _ Hc)) | | exact Hens].
      rewrite <- (enumerate_snd embeds). apply Forall2_map_left. apply Forall2_map_right.
      eapply Forall2_weaken; [|exact HE]. intros (i, c) c' (fs & E & _ & _ & A & _).
      cbn [fst snd] in *. subst c. exists fs. auto. }
    assert (Hnd' := Hnd). apply NoDup_cons_iff in Hnd'. destruct Hnd' as [_ Hnd'].
    assert (Dc : NoDup (map c_name xs)) by (rewrite Ncs; eapply NoDup_app_left; exact Hnd').
    assert (De : NoDup (map e_name ys)) by (rewrite Nes; eapply NoDup_app_right; exact Hnd').
    rewrite (puts_class xs []) by exact Dc. rewrite (puts_embed ys []) by exact De. cbn [app].
    rewrite Ncs, Nes.
    destruct (own_properties re_ok ordered cns ens ref l) as [gps|] eqn:Eg; [|discriminate]. cbn [bind].
    apply (own_properties_inv n cns ens Hnames ref l [] gps Hread Hprops) in Eg.
    match goal with |- bind ?m _ = _ -> _ => destruct m as [cps|] eqn:Ecp end; [|discriminate]. cbn [bind].
    match goal with |- bind ?m _ = _ -> _ => destruct m as [eps|] eqn:Eep end; [|discriminate]. cbn [bind].
    apply mapM_Ok in Ecp, Eep.
    set (Q := fun k (ix : nat * jval) (np : str * list prop) => exists fs, snd ix = JObj fs /\
      text_at (s_ "name") fs = Ok (fst np) /\ own_properties re_ok ordered cns ens (nth_ref ref (s_ k) (fst ix)) fs = Ok (snd np)).
    assert (HQ : forall k (ix : nat * jval) np,
       (do fs <- fields (snd ix); do n <- text_at (s_ "name") fs;
        do ps <- own_properties re_ok ordered cns ens (nth_ref ref (s_ k) (fst ix)) fs; Ok (n, ps)) = Ok np -> Q k ix np).
    { intros k (i, c) (n', ps). cbn [fst snd]. destruct c as [| | | | | |fs]; try discriminate. cbn [fields bind].
      destruct (text_at (s_ "name") fs) as [m|] eqn:E1; [|discriminate]. cbn [bind].
      destruct (own_properties _ _ _ _ _ fs) eqn:E2; [|discriminate]. cbn [bind]. intros [= <- <-]. exists fs. auto. }
    apply (Forall2_weaken _ (Q "classes"%string) _ _ (HQ "classes"%string)) in Ecp.
    apply (Forall2_weaken _ (Q "embeds"%string) _ _ (HQ "embeds"%string)) in Eep.
    destruct (sets_class cps xs) with (pre := @nil cls) as (cs' & Ecs' & Ncs' & Lcs' & Hcs'); [|exact Dc|].
    { eapply Forall2_join; [exact HR | exact Ecp|]. intros (i, c) c' np (fs & E & _ & A & B & _) (fs' & E' & C & _).
      cbn [fst snd] in *. subst c. injection E' as <-. rewrite (text_at_ok fs A _ _ B) in C. congruence. }
    destruct (sets_embed eps ys) with (pre := @nil embed) as (es' & Ees' & Nes' & Les' & Hes'); [|exact De|].
    { eapply Forall2_join; [exact HE | exact Eep|]. intros (i, c) c' np (fs & E & _ & A & B & _) (fs' & E' & C & _).
      cbn [fst snd] in *. subst c. injection E' as <-. rewrite (text_at_ok fs A _ _ B) in C. congruence. }
    cbn [app] in Ecs', Ees'. rewrite Ecs', Ees'.
    destruct (settings_ok cpp_of cpp_ok describes_cpp l "cpp" Hw0 cpp_described Hcpp) as (cpp & -> & Dcpp). cbn [bind].
    destruct (settings_ok go_of go_ok describes_go l "go" Hw0 go_described Hgo) as (go & -> & Dgo). cbn [bind].
    destruct (settings_ok py_of py_ok describes_py l "py" Hw0 py_described Hpy) as (py & -> & Dpy). cbn [bind].
    intros E0; injection E0 as <-. split; [|exists l; cbn [sc_cpp sc_go sc_py]; auto].
    destruct (enumerate_Forall2 _ _ _ HR) as [L1 K1]. destruct (enumerate_Forall2 _ _ _ HE) as [L2 K2].
    destruct (enumerate_Forall2 _ _ _ Ecp) as [L3 K3]. destruct (enumerate_Forall2 _ _ _ Eep) as [L4 K4].
    unfold describes_graph. cbn [sc_graph g_name g_description g_ref g_classes g_embeds g_props].
    rewrite Ncs', Nes', Ncs, Nes. exists l, classes, embeds.
    repeat (split; [solve [reflexivity | assumption | congruence]|]). split; [|split; [|exact Eg]].
    - intros i c e Hi Hc. assert (Hlt : i < length classes) by (apply nth_error_Some; congruence).
      destruct (nth_error xs i) as [x|] eqn:Ex; [|apply nth_error_None in Ex; lia].
      destruct (nth_error cps i) as [np|] eqn:Enp; [|apply nth_error_None in Enp; lia].
      destruct (K1 i e x Hi Ex) as (fs & E & _ & A1 & A2 & A3 & A4 & A5 & A6). destruct (K3 i e np Hi Enp) as (fs' & E' & _ & B).
      cbn [fst snd] in *. subst e. injection E' as <-. rewrite (Hcs' i np x) in Hc; [|exact Enp | exact Ex]. injection Hc as <-.
      apply nth_error_In in Hi. destruct (Hcok _ Hi) as (fs' & [= <-] & _ & _ & _ & _ & _ & Hp).
      exists fs. unfold with_cprops. cbn [c_name c_description c_plural c_id_pattern c_ref c_props].
      repeat (split; [solve [reflexivity | assumption]|]). eapply own_properties_inv; eauto.
    - intros i c e Hi Hc. assert (Hlt : i < length embeds) by (apply nth_error_Some; congruence).
      destruct (nth_error ys i) as [x|] eqn:Ex; [|apply nth_error_None in Ex; lia].
      destruct (nth_error eps i) as [np|] eqn:Enp; [|apply nth_error_None in Enp; lia].
      destruct (K2 i e x Hi Ex) as (fs & E & _ & A1 & A2 & A3 & A4). destruct (K4 i e np Hi Enp) as (fs' & E' & _ & B).
      cbn [fst snd] in *. subst e. injection E' as <-. rewrite (Hes' i np x) in Hc; [|exact Enp | exact Ex]. injection Hc as <-.
      apply nth_error_In in Hi. destruct (Heok _ Hi) as (fs' & [= <-] & _ & _ & _ & Hp).
      exists fs. unfold with_eprops. cbn [e_name e_description e_ref e_props].
      repeat (split; [solve [reflexivity | assumption]|]). eapply own_properties_inv; eauto.
  Qed.
End Inverse.
