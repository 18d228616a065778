(** Proofs about the references of the composites of a schema. *)
From Coq Require Import String List Arith NArith ZArith Bool Lia.
From Verif Require Import Base M_Naming M_Schema M_TypeGraph M_Walk M_GoImports S_Scope M_Scope S_TypeGraph S_Conform S_Walk S_GoImports
  P_Walk P_TypeGraph T_TypeGraph P_GoImports.
Import ListNotations.
Open Scope list_scope.
Local Open Scope nat_scope.

Section References.
  Variable g : graph.
  Hypothesis HR : resolved g.
  Hypothesis HN : NoDup (map c_name (g_classes g)).
  Let h := heap_of g.

  (** The objects of value types other than classes and embeddable structures. *)
  Definition plain (o : tobj) : Prop := match o with OPrim _ | OArray _ | OMap _ => True | _ => False end.
  Lemma place_type_plain t : forall base o, In o (fst (place_type g t base)) -> plain o.
  Proof.
    induction t; intros base o; cbn [place_type fst]; try (intros [<-|[]]; exact I).
    1,2: specialize (IHt (S base)); destruct (place_type g t (S base)) as [os a]; cbn [fst] in *; intros [<-|H]; [exact I|now apply IHt].
    all: intros [].
  Qed.
  Lemma place_props_plain ps : forall base o, In o (fst (place_props g ps base)) -> plain o.
  Proof.
    induction ps as [|p ps IH]; intros base o; cbn [place_props fst]; [intros []|].
    pose proof (place_type_plain (p_type p) base o) as H1. destruct (place_type g (p_type p) base) as [os a].
    specialize (IH (base + length os) o). destruct (place_props g ps (base + length os)) as [os' l]. cbn [fst] in *.
    intros H. apply in_app_or in H as [H|H]; auto.
  Qed.
  Lemma place_composites_plain L : forall base o, In o (fst (place_composites g L base)) -> plain o.
  Proof.
    induction L as [|ps L IH]; intros base o; cbn [place_composites fst]; [intros []|].
    pose proof (place_props_plain ps base o) as H1. destruct (place_props g ps base) as [os a].
    specialize (IH (base + length os) o). destruct (place_composites g L (base + length os)) as [os' l]. cbn [fst] in *.
    intros H. apply in_app_or in H as [H|H]; auto.
  Qed.

  Lemma combine_nth_l {A B} (l : list A) (m : list B) i a b : nth_error (combine l m) i = Some (a, b) -> nth_error l i = Some a.
  Proof. revert m i. induction l as [|x l IH]; intros [|y m] [|i]; cbn; try discriminate; [congruence|apply IH]. Qed.

  Lemma class_at a n ps : nth_error h a = Some (OClass n ps) -> exists c, nth_error (g_classes g) a = Some c /\ c_name c = n.
  Proof.
    unfold h, heap_of. pose proof (place_composites_plain (composites g) (S (root g))) as HP. fold (composites g).
    destruct (place_composites g (composites g) (S (root g))) as [pool addrs]. cbn [fst] in HP.
    intros E. destruct (Nat.lt_ge_cases a (length (map (fun ca : cls * list addr => OClass (c_name (fst ca)) (snd ca)) (combine (g_classes g) addrs)))) as [H|H].
    - rewrite nth_error_app1 in E by exact H. rewrite nth_error_map in E.
      destruct (nth_error (combine (g_classes g) addrs) a) as [[c l]|] eqn:Ec; [|discriminate]. cbn in E. injection E as <- _.
      exists c. split; [now apply combine_nth_l in Ec|reflexivity].
    - exfalso. rewrite nth_error_app2 in E by exact H. apply nth_error_In in E.
      apply in_app_or in E as [E|E]; [apply in_map_iff in E as (x & E & _); discriminate|].
      apply in_app_or in E as [[E|[]]|E]; [discriminate|]. exact (HP _ E).
  Qed.

  Lemma heap_names : names_unique h.
  Proof.
    intros a b n ps qs Ea Eb. apply class_at in Ea as (c & Ec & <-). apply class_at in Eb as (d & Ed & E).
    eapply (proj1 (NoDup_nth_error _) HN).
    - rewrite map_length. apply nth_error_Some. congruence.
    - rewrite !nth_error_map, Ec, Ed. cbn. now f_equal.
  Qed.

  Lemma graph_at a cs es ps : nth_error h a = Some (OGraph cs es ps) -> a = root g.
  Proof.
    unfold h, heap_of. pose proof (place_composites_plain (composites g) (S (root g))) as HP. fold (composites g).
    pose proof (place_composites_length g (composites g) (S (root g))) as HL.
    destruct (place_composites g (composites g) (S (root g))) as [pool addrs]. cbn [fst snd] in HP, HL. rewrite composites_length in HL.
    set (C := map _ (combine (g_classes g) addrs)). set (D := map _ (combine (g_embeds g) _)).
    assert (LC : length C = n_classes g) by (unfold C; rewrite map_length, combine_length; unfold root in HL; fold (n_classes g); lia).
    assert (LD : length D = n_embeds g) by (unfold D; rewrite map_length, combine_length, skipn_length; unfold root in HL; fold (n_embeds g); lia).
    intros E. destruct (Nat.lt_ge_cases a (length C)) as [H|H].
    - rewrite nth_error_app1 in E by exact H. apply nth_error_In in E. apply in_map_iff in E as (x & E & _). discriminate.
    - rewrite nth_error_app2 in E by exact H. destruct (Nat.lt_ge_cases (a - length C) (length D)) as [H'|H'].
      + rewrite nth_error_app1 in E by exact H'. apply nth_error_In in E. apply in_map_iff in E as (x & E & _). discriminate.
      + rewrite nth_error_app2 in E by exact H'. destruct (a - length C - length D) as [|k] eqn:Ek; [unfold root; lia|].
        cbn in E. apply nth_error_In, HP in E. destruct E.
  Qed.

  Lemma rep_no_root a t : rep g h a t -> a <> root g.
  Proof.
    destruct (heap_facts g HR) as (_ & _ & HC). fold h in HC.
    assert (Er : nth_error (composites g) (root g) = Some (g_props g)).
    { unfold composites. rewrite nth_error_app2; rewrite map_length; unfold root, n_classes, n_embeds; [|lia].
      rewrite nth_error_app2; rewrite map_length; [|lia]. replace (_ - _) with 0 by lia. reflexivity. }
    destruct (HC _ _ Er) as (o' & Eo' & [(_ & Hlt)|[(_ & Hlt)|((l & ->) & _)]] & _); [unfold root in Hlt; lia..|].
    intros H. destruct H as [b u p E _|b c v mn mx E _|b c v E _|b n Hb|b n Hb]; intros ->; try congruence; unfold root in *; lia.
  Qed.

  Lemma place_type_root t : forall base, ty_resolved g t -> root g < base ->
    snd (place_type g t base) <> root g /\
    forall o b, In o (fst (place_type g t base)) -> In b (children_of o) -> b <> root g.
  Proof.
    induction t; intros base Ht Hb; cbn [place_type fst snd ty_resolved] in *;
      try (split; [lia|intros ? ? [<-|[]] Hc; destruct Hc]; fail).
    1,2: destruct (IHt (S base) Ht ltac:(lia)) as (H1 & H2); destruct (place_type g t (S base)) as [os a]; cbn [fst snd] in *;
      (split; [lia|]); intros o b [<-|Ho]; [intros [<-|[]]; exact H1|now apply H2].
    - split; [|intros o b []]. pose proof (position_lt _ _ (find_class_name _ _ Ht)) as H. rewrite map_length in H. unfold root, n_classes. lia.
    - split; [|intros o b []]. pose proof (position_lt _ _ (find_embed_name _ _ Ht)) as H. rewrite map_length in H. unfold root, n_classes, n_embeds. lia.
  Qed.
  Lemma place_props_root ps : forall base, (forall p, In p ps -> ty_resolved g (p_type p)) -> root g < base ->
    forall o b, In o (fst (place_props g ps base)) -> In b (children_of o) -> b <> root g.
  Proof.
    induction ps as [|p ps IH]; intros base Ht Hb o b; cbn [place_props fst]; [intros []|].
    destruct (place_type_root (p_type p) base (Ht _ (or_introl eq_refl)) Hb) as (_ & H1). destruct (place_type g (p_type p) base) as [os a].
    specialize (IH (base + length os) (fun q Hq => Ht q (or_intror Hq)) ltac:(lia) o b).
    destruct (place_props g ps (base + length os)) as [os' l]. cbn [fst] in *.
    intros H Hc. apply in_app_or in H as [H|H]; [now apply (H1 o)|now apply IH].
  Qed.
  Lemma place_composites_root L : forall base, (forall ps p, In ps L -> In p ps -> ty_resolved g (p_type p)) -> root g < base ->
    forall o b, In o (fst (place_composites g L base)) -> In b (children_of o) -> b <> root g.
  Proof.
    induction L as [|ps L IH]; intros base Ht Hb o b; cbn [place_composites fst]; [intros []|].
    pose proof (place_props_root ps base (fun p Hp => Ht ps p (or_introl eq_refl) Hp) Hb) as H1. destruct (place_props g ps base) as [os a].
    specialize (IH (base + length os) (fun qs q Hqs Hq => Ht qs q (or_intror Hqs) Hq) ltac:(lia) o b).
    destruct (place_composites g L (base + length os)) as [os' l]. cbn [fst] in *.
    intros H Hc. apply in_app_or in H as [H|H]; [now apply (H1 o)|now apply IH].
  Qed.

  Lemma pool_at a o : root g < a -> nth_error h a = Some o -> In o (fst (place_composites g (composites g) (S (root g)))).
  Proof.
    unfold h, heap_of. fold (composites g).
    pose proof (place_composites_length g (composites g) (S (root g))) as HL.
    destruct (place_composites g (composites g) (S (root g))) as [pool addrs]. cbn [fst snd] in HL |- *. rewrite composites_length in HL.
    set (C := map _ (combine (g_classes g) addrs)). set (D := map _ (combine (g_embeds g) _)).
    assert (LC : length C = n_classes g) by (unfold C; rewrite map_length, combine_length; unfold root in HL; fold (n_classes g); lia).
    assert (LD : length D = n_embeds g) by (unfold D; rewrite map_length, combine_length, skipn_length; unfold root in HL; fold (n_embeds g); lia).
    intros Ha E. rewrite nth_error_app2 in E by (unfold root in Ha; lia). rewrite nth_error_app2 in E by (unfold root in Ha; lia).
    rewrite LC, LD in E. destruct (a - n_classes g - n_embeds g) as [|k] eqn:Ek; [unfold root in Ha; lia|]. cbn in E.
    now apply nth_error_In in E.
  Qed.

  Lemma edge_children a b : edge h a b -> exists o, nth_error h a = Some o /\ In b (children_of o).
  Proof.
    intros HE. destruct HE as [a v HE|a v HE|a n ps b HE HI|a n ps b HE HI|a cs es ps b HE HI|a cs es ps b HE HI|a cs es ps b HE HI];
      eexists; (split; [exact HE|]); cbn [children_of]; try (now left); try exact HI; apply in_or_app; [now left|right..]; apply in_or_app; [now left|now right].
  Qed.

  Lemma heap_root : graph_is_root h.
  Proof.
    destruct (heap_facts g HR) as (_ & _ & HC). fold h in HC.
    intros a b HE cs es ps E. apply graph_at in E. subst b. apply edge_children in HE as (o & Eo & Hb).
    destruct (Nat.lt_ge_cases (root g) a) as [Ha|Ha].
    - apply pool_at in Eo; [|exact Ha]. exact (place_composites_root _ _ HR (Nat.lt_succ_diag_r _) _ _ Eo Hb eq_refl).
    - destruct (nth_error (composites g) a) as [qs|] eqn:Eps.
      2:{ apply nth_error_None in Eps. rewrite composites_length in Eps. lia. }
      destruct (HC _ _ Eps) as (o' & Eo' & Hco & HF). rewrite Eo in Eo'. injection Eo' as <-.
      assert (P : ~ In (root g) (props_of o)).
      { intros Hc. destruct (Forall2_In_l _ _ _ HF _ Hc) as (p & Hp & Hr). now apply rep_no_root in Hr. }
      destruct Hco as [((n & l & ->) & Hi)|[((n & l & ->) & Hi)|((l & ->) & Hi)]]; cbn [children_of props_of] in *; try tauto.
      apply in_app_or in Hb as [Hb|Hb]; [apply in_seq in Hb; unfold root in Hb; lia|].
      apply in_app_or in Hb as [Hb|Hb]; [apply in_seq in Hb; unfold root in Hb; lia|tauto].
  Qed.

  (** The composite at the address: its properties as addresses. *)
  Lemma props_at k ps : nth_error (composites g) k = Some ps -> k < root g ->
    exists l, (exists n, nth_error h k = Some (OClass n l) \/ nth_error h k = Some (OEmbed n l)) /\
      Forall2 (fun a p => rep g h a (p_type p)) l ps.
  Proof.
    intros Eps Hk. destruct (heap_facts g HR) as (_ & _ & HC). fold h in HC. destruct (HC _ _ Eps) as (o & Eo & Hco & HF).
    destruct Hco as [((n & l & ->) & Hi)|[((n & l & ->) & Hi)|((l & ->) & Hi)]]; [| |lia]; exists l; (split; [exists n; auto|exact HF]).
  Qed.

  Lemma rep_value a t : rep g h a t -> S_TypeGraph.value_type h a.
  Proof.
    destruct (heap_facts g HR) as (_ & Hlen & _). fold h in Hlen. intros Hr. split.
    - destruct Hr as [b u p E _|b c v mn mx E _|b c v E _|b n Hb|b n Hb]; try (apply nth_error_Some; congruence); unfold root in *; lia.
    - intros cs es ps E. apply graph_at in E. now apply rep_no_root in Hr.
  Qed.

  Lemma references_at k ps : nth_error (composites g) k = Some ps -> k < root g ->
    exists l addrs, (exists n, nth_error h k = Some (OClass n addrs) \/ nth_error h k = Some (OEmbed n addrs)) /\
      Forall2 (fun a p => rep g h a (p_type p)) addrs ps /\
      references h (S (length h)) addrs = Some l /\ NoDup l /\
      (forall a, In a l <-> has_kind h a KClass /\ exists p, In p addrs /\ reach h p a) /\
      references_of g k = flat_map (fun a => match nth_error (g_classes g) a with Some c => [c] | None => [] end) l.
  Proof.
    intros Eps Hk. destruct (props_at _ _ Eps Hk) as (addrs & (n & Hn) & HF).
    destruct (heap_facts g HR) as (WF & _ & _). fold h in WF.
    destruct (C29_references h (S (length h)) addrs WF heap_root heap_names (Nat.lt_succ_diag_r _)) as (l & El & Hl & _ & Hin).
    { intros a Ha. destruct (Forall2_In_l _ _ _ HF _ Ha) as (p & _ & Hr). now apply rep_value in Hr. }
    exists l, addrs. split; [eauto|]. split; [exact HF|]. split; [exact El|]. split; [exact Hl|]. split; [exact Hin|].
    unfold references_of. fold h. destruct Hn as [-> | ->]; now rewrite El.
  Qed.

  Lemma rep_reach_class t n : In n (classes_in t) -> forall a, rep g h a t -> reach h a (position n (map c_name (g_classes g))).
  Proof.
    induction t; cbn [classes_in]; try (intros []; fail); intros Hn a Hr.
    - inversion Hr as [? ? q E0 E1|? b ? ? ? E0 Hb| | |]; subst; [discriminate E1|]. econstructor; [eapply e_array; exact E0|now apply IHt].
    - inversion Hr as [? ? q E0 E1| |? b ? E0 Hb| |]; subst; [discriminate E1|]. econstructor; [eapply e_map; exact E0|now apply IHt].
    - destruct Hn as [<-|[]]. inversion Hr as [? ? q E0 E1| | |? ? [_ Hb]|]; subst; [discriminate E1|]. constructor.
  Qed.
  Lemma rep_reach_embed t n : In n (embeds_in t) -> forall a, rep g h a t -> reach h a (n_classes g + position n (map e_name (g_embeds g))).
  Proof.
    induction t; cbn [embeds_in]; try (intros []; fail); intros Hn a Hr.
    - inversion Hr as [? ? q E0 E1|? b ? ? ? E0 Hb| | |]; subst; [discriminate E1|]. econstructor; [eapply e_array; exact E0|now apply IHt].
    - inversion Hr as [? ? q E0 E1| |? b ? E0 Hb| |]; subst; [discriminate E1|]. econstructor; [eapply e_map; exact E0|now apply IHt].
    - destruct Hn as [<-|[]]. inversion Hr as [? ? q E0 E1| | | |? ? [_ Hb]]; subst; [discriminate E1|]. constructor.
  Qed.

  Lemma find_position n c : find_class g n = Some c -> nth_error (g_classes g) (position n (map c_name (g_classes g))) = Some c.
  Proof.
    clear HN HR. unfold find_class. induction (g_classes g) as [|d l IH]; [discriminate|]. cbn [find map position].
    rewrite (str_eqb_sym n). destruct (str_eqb (c_name d) n); [easy|exact IH].
  Qed.

  (** The classes of the references: classes of the graph, each once, and those which the
      properties mention; those of an embeddable structure which is mentioned are among them. *)
  Lemma references_of_spec k ps : nth_error (composites g) k = Some ps -> k < root g ->
    incl (references_of g k) (g_classes g) /\ NoDup (references_of g k) /\
    (forall p n c, In p ps -> In n (classes_in (p_type p)) -> find_class g n = Some c -> In c (references_of g k)) /\
    (forall p n, In p ps -> In n (embeds_in (p_type p)) -> incl (embed_references g n) (references_of g k)).
  Proof.
    intros Eps Hk. destruct (references_at _ _ Eps Hk) as (l & addrs & (m & Hm) & HF & El & Hnd & Hin & ->). split; [|split; [|split]].
    - intros c Hc. apply in_flat_map in Hc as (a & _ & Hc). destruct (nth_error (g_classes g) a) eqn:E; [|destruct Hc].
      destruct Hc as [<-|[]]. now apply nth_error_In in E.
    - clear Hin El. apply NoDup_map_inv in HN. induction Hnd as [|a l Ha Hnd IH]; [constructor|]. cbn [flat_map].
      destruct (nth_error (g_classes g) a) as [c|] eqn:Ec; [|exact IH]. constructor; [|exact IH].
      intros Hc. apply in_flat_map in Hc as (b & Hb & Hc). destruct (nth_error (g_classes g) b) as [d|] eqn:Ed; [|destruct Hc].
      destruct Hc as [->|[]]. replace a with b in Ha; [contradiction|]. apply (proj1 (NoDup_nth_error _) HN); [apply nth_error_Some; congruence|congruence].
    - intros p n c Hp Hn Hc. apply find_position in Hc. apply in_flat_map. eexists. split; [|rewrite Hc; now left].
      apply Hin. destruct (Forall2_In_r _ _ _ HF _ Hp) as (a & Ha & Hr). split; [|exists a; split; [exact Ha|now apply (rep_reach_class (p_type p))]].
      destruct (heap_facts g HR) as (_ & _ & HC). fold h in HC.
      set (i := position n _) in *. assert (Hi : i < n_classes g) by (apply nth_error_Some; congruence).
      destruct (nth_error (composites g) i) as [qs|] eqn:Eq.
      2:{ apply nth_error_None in Eq. rewrite composites_length in Eq. unfold root in Eq. lia. }
      destruct (HC _ _ Eq) as (o & Eo & [((k' & l' & ->) & _)|[(_ & Hlt)|(_ & Hlt)]] & _); [|unfold root in Hlt; lia..].
      now exists (OClass k' l').
    - intros p n Hp Hn. destruct (Forall2_In_r _ _ _ HF _ Hp) as (a & Ha & Hr).
      set (e := n_classes g + position n (map e_name (g_embeds g))).
      assert (He : n_classes g <= e < root g).
      { assert (Ht : ty_resolved g (p_type p)) by (apply (HR ps); [now apply nth_error_In in Eps|exact Hp]).
        assert (Hf : find_embed g n <> None).
        { clear - Ht Hn. induction (p_type p); cbn [embeds_in ty_resolved] in *; try (destruct Hn; fail); auto.
          destruct Hn as [<-|[]]. exact Ht. }
        pose proof (position_lt _ _ (find_embed_name _ _ Hf)) as H. rewrite map_length in H. unfold e, root, n_embeds. lia. }
      destruct (nth_error (composites g) e) as [qs|] eqn:Eq.
      2:{ apply nth_error_None in Eq. rewrite composites_length in Eq. lia. }
      destruct (references_at _ _ Eq (proj2 He)) as (l' & addrs' & (m' & Hm') & HF' & El' & _ & _ & E').
      unfold embed_references. fold (n_classes g). fold e. rewrite E'.
      destruct (heap_facts g HR) as (WF & _ & HC). fold h in WF, HC.
      assert (Hemb : nth_error h e = Some (OEmbed m' addrs')).
      { destruct Hm' as [Hm'|Hm']; [|exact Hm']. apply class_at in Hm' as (c & Hc & _).
        assert (e < n_classes g) by (apply nth_error_Some; congruence). lia. }
      assert (I : incl l' l).
      { eapply (C29_references_nested h (S (length h)) addrs e m' addrs'); try eassumption; try exact heap_root; try exact heap_names.
        - apply Nat.lt_succ_diag_r.
        - intros b Hb. destruct (Forall2_In_l _ _ _ HF _ Hb) as (q & _ & Hq). now apply rep_value in Hq.
        - exists a. split; [exact Ha|]. now apply (rep_reach_embed (p_type p)). }
      intros c Hc. apply in_flat_map in Hc as (b & Hb & Hc). apply in_flat_map. exists b. split; [now apply I|exact Hc].
  Qed.
End References.
