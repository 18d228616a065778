(** Proofs about the imports of the generated Go sources. *)
From Coq Require Import String List Arith NArith ZArith Bool Lia Permutation.
From Verif Require Import Base M_Naming M_Schema M_TypeGraph M_Walk M_GoImports S_TypeGraph S_Conform S_Walk S_GoImports P_Walk P_TypeGraph T_TypeGraph.
Import ListNotations.
Open Scope list_scope.
Local Open Scope nat_scope.

Definition prim_of (t : ty) : option prim :=
  match t with
  | TBool => Some PBoolean | TInt _ => Some PInteger | TFloat _ => Some PFloat | TStr _ => Some PString
  | TPath _ => Some PPath | TDate _ => Some PDate | TTime _ => Some PTime | TDatetime _ => Some PDatetime
  | TTimeZone => Some PTimeZone | TDuration => Some PDuration
  | TArray _ _ _ | TMap _ | TClass _ | TEmbed _ => None
  end.

Section Rep.
  Variable g : graph.
  Notation base0 := (S (root g)).

  (** [rep h a t]: the object at [a] is the type [t]. *)
  Inductive rep (h : heap) : addr -> ty -> Prop :=
  | rep_prim a t p : nth_error h a = Some (OPrim p) -> prim_of t = Some p -> rep h a t
  | rep_array a b v mn mx : nth_error h a = Some (OArray b) -> rep h b v -> rep h a (TArray v mn mx)
  | rep_map a b v : nth_error h a = Some (OMap b) -> rep h b v -> rep h a (TMap v)
  | rep_class a n : a < n_classes g /\ a = position n (map c_name (g_classes g)) -> rep h a (TClass n)
  | rep_embed a n : n_classes g <= a < root g /\ a = n_classes g + position n (map e_name (g_embeds g)) -> rep h a (TEmbed n).

  Lemma position_lt n l : In n l -> position n l < length l.
  Proof.
    induction l as [|m l IH]; intros H; [destruct H|]. cbn [position length].
    destruct (str_eqb n m) eqn:E; [lia|]. destruct H as [->|H]; [now rewrite str_eqb_refl in E|]. specialize (IH H). lia.
  Qed.

  Lemma find_class_name n : find_class g n <> None -> In n (map c_name (g_classes g)).
  Proof.
    unfold find_class. destruct (find _ _) as [c|] eqn:F; [|now intros []]. intros _. apply find_some in F as (HI & E).
    apply str_eqb_eq in E. apply in_map_iff. exists c. split; [|exact HI]. congruence.
  Qed.
  Lemma find_embed_name n : find_embed g n <> None -> In n (map e_name (g_embeds g)).
  Proof.
    unfold find_embed. destruct (find _ _) as [c|] eqn:F; [|now intros []]. intros _. apply find_some in F as (HI & E).
    apply str_eqb_eq in E. apply in_map_iff. exists c. split; [|exact HI]. congruence.
  Qed.

  (** [os] is placed at [base] in [h]. *)
  Definition placed (h : heap) (os : list tobj) (base : addr) : Prop :=
    forall i, i < length os -> nth_error h (base + i) = nth_error os i.

  Lemma placed_app h os os' base : placed h (os ++ os') base -> placed h os base /\ placed h os' (base + length os).
  Proof.
    intros H. split; intros i Hi.
    - rewrite H by (rewrite app_length; lia). now apply nth_error_app1.
    - rewrite <- Nat.add_assoc, H by (rewrite app_length; lia). rewrite nth_error_app2 by lia. f_equal. lia.
  Qed.
  Lemma placed_cons h o os base : placed h (o :: os) base -> nth_error h base = Some o /\ placed h os (S base).
  Proof.
    intros H. split.
    - rewrite <- (Nat.add_0_r base). rewrite H by (cbn; lia). reflexivity.
    - intros i Hi. replace (S base + i) with (base + S i) by lia. rewrite H by (cbn; lia). reflexivity.
  Qed.

  Lemma place_type_rep h t : forall base os a, ty_resolved g t ->
    place_type g t base = (os, a) -> placed h os base -> rep h a t.
  Proof.
    induction t; intros base os a HR E HP; cbn [place_type] in E; cbn [ty_resolved] in HR.
    all: try (injection E as <- <-; apply placed_cons in HP as (HP & _); econstructor 1; [exact HP|reflexivity]).
    - destruct (place_type g t (S base)) as [os' a'] eqn:E'. injection E as <- <-.
      apply placed_cons in HP as (HP & HP'). econstructor 2; [exact HP|]. eapply IHt; eassumption.
    - destruct (place_type g t (S base)) as [os' a'] eqn:E'. injection E as <- <-.
      apply placed_cons in HP as (HP & HP'). econstructor 3; [exact HP|]. eapply IHt; eassumption.
    - injection E as <- <-. constructor 4. split; [|reflexivity]. unfold n_classes. rewrite <- (map_length c_name).
      apply position_lt, find_class_name, HR.
    - injection E as <- <-. constructor 5. split; [|reflexivity]. unfold root, n_embeds. rewrite <- (map_length e_name (g_embeds g)).
      pose proof (position_lt _ _ (find_embed_name _ HR)). lia.
  Qed.

  Lemma place_type_bound t : forall base os a, ty_resolved g t -> base0 <= base ->
    place_type g t base = (os, a) ->
    a < base + length os /\ forall o b, In o os -> In b (children_of o) -> b < base + length os.
  Proof.
    induction t; intros base os a HR HB E; cbn [place_type] in E; cbn [ty_resolved] in HR.
    all: try (injection E as <- <-; cbn [length]; split; [lia|intros ? ? [<-|[]] Hb; destruct Hb]).
    - destruct (place_type g t (S base)) as [os' a'] eqn:E'. injection E as <- <-.
      apply IHt in E' as (H1 & H2); [|exact HR|lia]. cbn [length]. split; [lia|]. intros o b [<-|Ho] Hb.
      + cbn in Hb. destruct Hb as [<-|[]]. lia.
      + specialize (H2 _ _ Ho Hb). lia.
    - destruct (place_type g t (S base)) as [os' a'] eqn:E'. injection E as <- <-.
      apply IHt in E' as (H1 & H2); [|exact HR|lia]. cbn [length]. split; [lia|]. intros o b [<-|Ho] Hb.
      + cbn in Hb. destruct Hb as [<-|[]]. lia.
      + specialize (H2 _ _ Ho Hb). lia.
    - injection E as <- <-. split; [|intros o b []]. cbn [length].
      pose proof (position_lt _ _ (find_class_name _ HR)) as H. rewrite map_length in H. fold (n_classes g) in H. unfold root in HB. lia.
    - injection E as <- <-. split; [|intros o b []]. cbn [length].
      pose proof (position_lt _ _ (find_embed_name _ HR)) as H. rewrite map_length in H. fold (n_embeds g) in H. unfold root in HB. lia.
  Qed.

  Lemma place_props_rep h ps : forall base os l, (forall p, In p ps -> ty_resolved g (p_type p)) ->
    place_props g ps base = (os, l) -> placed h os base -> Forall2 (fun a p => rep h a (p_type p)) l ps.
  Proof.
    induction ps as [|p ps IH]; intros base os l HR E HP; cbn [place_props] in E.
    - injection E as <- <-. constructor.
    - destruct (place_type g (p_type p) base) as [os1 a1] eqn:E1.
      destruct (place_props g ps (base + length os1)) as [os2 l2] eqn:E2. injection E as <- <-.
      apply placed_app in HP as (HP1 & HP2). constructor.
      + eapply place_type_rep; [apply HR; now left|exact E1|exact HP1].
      + eapply IH; [intros q Hq; apply HR; now right|exact E2|exact HP2].
  Qed.
  Lemma place_props_bound ps : forall base os l, (forall p, In p ps -> ty_resolved g (p_type p)) -> base0 <= base ->
    place_props g ps base = (os, l) ->
    (forall a, In a l -> a < base + length os) /\ forall o b, In o os -> In b (children_of o) -> b < base + length os.
  Proof.
    induction ps as [|p ps IH]; intros base os l HR HB E; cbn [place_props] in E.
    - injection E as <- <-. split; intros ? []; intros [].
    - destruct (place_type g (p_type p) base) as [os1 a1] eqn:E1.
      destruct (place_props g ps (base + length os1)) as [os2 l2] eqn:E2. injection E as <- <-.
      apply place_type_bound in E1 as (A1 & A2); [|apply HR; now left|exact HB].
      apply IH in E2 as (B1 & B2); [|intros q Hq; apply HR; now right|lia]. rewrite app_length. split.
      + intros a [<-|Ha]; [lia|]. specialize (B1 _ Ha). lia.
      + intros o b Ho Hb. apply in_app_or in Ho as [Ho|Ho]; [specialize (A2 _ _ Ho Hb)|specialize (B2 _ _ Ho Hb)]; lia.
  Qed.

  Lemma place_composites_rep h L : forall base os l, (forall ps p, In ps L -> In p ps -> ty_resolved g (p_type p)) ->
    place_composites g L base = (os, l) -> placed h os base ->
    Forall2 (Forall2 (fun a p => rep h a (p_type p))) l L.
  Proof.
    induction L as [|ps L IH]; intros base os l HR E HP; cbn [place_composites] in E.
    - injection E as <- <-. constructor.
    - destruct (place_props g ps base) as [os1 a1] eqn:E1.
      destruct (place_composites g L (base + length os1)) as [os2 l2] eqn:E2. injection E as <- <-.
      apply placed_app in HP as (HP1 & HP2). constructor.
      + eapply place_props_rep; [intros p Hp; eapply HR; [now left|exact Hp]|exact E1|exact HP1].
      + eapply IH; [intros q p Hq; apply HR; now right|exact E2|exact HP2].
  Qed.
  Lemma place_composites_bound L : forall base os l, (forall ps p, In ps L -> In p ps -> ty_resolved g (p_type p)) -> base0 <= base ->
    place_composites g L base = (os, l) ->
    (forall as' a, In as' l -> In a as' -> a < base + length os) /\
    forall o b, In o os -> In b (children_of o) -> b < base + length os.
  Proof.
    induction L as [|ps L IH]; intros base os l HR HB E; cbn [place_composites] in E.
    - injection E as <- <-. split; [intros ? ? []|intros ? ? []].
    - destruct (place_props g ps base) as [os1 a1] eqn:E1.
      destruct (place_composites g L (base + length os1)) as [os2 l2] eqn:E2. injection E as <- <-.
      apply place_props_bound in E1 as (A1 & A2); [|intros p Hp; eapply HR; [now left|exact Hp]|exact HB].
      apply IH in E2 as (B1 & B2); [|intros q p Hq; apply HR; now right|lia]. rewrite app_length. split.
      + intros as' a [<-|Ha] Hi; [specialize (A1 _ Hi); lia|]. specialize (B1 _ _ Ha Hi). lia.
      + intros o b Ho Hb. apply in_app_or in Ho as [Ho|Ho]; [specialize (A2 _ _ Ho Hb)|specialize (B2 _ _ Ho Hb)]; lia.
  Qed.

  Lemma place_composites_length L : forall base, length (snd (place_composites g L base)) = length L.
  Proof.
    induction L as [|ps L IH]; intros base; [reflexivity|]. cbn [place_composites].
    destruct (place_props g ps base) as [os1 a1]. specialize (IH (base + length os1)).
    destruct (place_composites g L (base + length os1)) as [os2 l2]. cbn in *. lia.
  Qed.

  Hypothesis HR : resolved g.
  Let h := heap_of g.

  (** The properties of the composite at [a], as addresses. *)
  Definition composite_object (a : addr) (o : tobj) : Prop :=
    (exists n l, o = OClass n l) /\ a < n_classes g \/
    (exists n l, o = OEmbed n l) /\ n_classes g <= a < root g \/
    (exists l, o = OGraph (List.seq 0 (n_classes g)) (List.seq (n_classes g) (n_embeds g)) l) /\ a = root g.
  Definition props_of (o : tobj) : list addr :=
    match o with OClass _ l | OEmbed _ l | OGraph _ _ l => l | _ => [] end.

  Lemma nth_combine {A B} (l : list A) (m : list B) i a b :
    nth_error l i = Some a -> nth_error m i = Some b -> nth_error (combine l m) i = Some (a, b).
  Proof. revert m i. induction l as [|x l IH]; intros [|y m] [|i]; cbn; try discriminate; [congruence|apply IH]. Qed.

  Lemma nth_skipn {A} (l : list A) n i : nth_error (skipn n l) i = nth_error l (n + i).
  Proof. revert l. induction n as [|n IH]; intros l; [reflexivity|]. destruct l as [|x l]; [now destruct i|]. apply IH. Qed.

  Lemma Forall2_nth {A B} (R : A -> B -> Prop) l m : Forall2 R l m -> forall i b, nth_error m i = Some b -> exists a, nth_error l i = Some a /\ R a b.
  Proof.
    induction 1 as [|x y l m Hxy H IH]; intros [|i] b E; try discriminate; cbn in *.
    - injection E as <-. eauto.
    - now apply IH.
  Qed.

  Lemma heap_facts :
    heap_wf h /\ root g < length h /\
    (forall i ps, nth_error (composites g) i = Some ps ->
       exists o, nth_error h i = Some o /\ composite_object i o /\ Forall2 (fun a p => rep h a (p_type p)) (props_of o) ps).
  Proof.
    unfold h. unfold heap_of. fold (composites g).
    destruct (place_composites g (composites g) base0) as [pool addrs] eqn:E.
    assert (HL : length addrs = base0).
    { pose proof (place_composites_length (composites g) base0) as H. rewrite E in H. cbn [snd] in H. rewrite H.
      unfold composites, root, n_classes, n_embeds. rewrite !app_length, !map_length. cbn [length]. lia. }
    set (C := map (fun ca : cls * list addr => OClass (c_name (fst ca)) (snd ca)) (combine (g_classes g) addrs)).
    set (D := map (fun ea : embed * list addr => OEmbed (e_name (fst ea)) (snd ea)) (combine (g_embeds g) (skipn (n_classes g) addrs))).
    set (G := OGraph _ _ _).
    assert (LC : length C = n_classes g) by (unfold C; rewrite map_length, combine_length; unfold root in HL; fold (n_classes g); lia).
    assert (LD : length D = n_embeds g) by (unfold D; rewrite map_length, combine_length, skipn_length; unfold root in HL; fold (n_embeds g); lia).
    set (H := C ++ D ++ [G] ++ pool).
    assert (LH : length H = base0 + length pool) by (unfold H; rewrite !app_length, LC, LD; cbn [length]; unfold root; lia).
    assert (HP : placed H pool base0).
    { intros i Hi. unfold H. rewrite !app_assoc, nth_error_app2; rewrite !app_length, LC, LD; cbn [length]; unfold root; [|lia]. f_equal. lia. }
    assert (HRc : forall ps p, In ps (composites g) -> In p ps -> ty_resolved g (p_type p)) by exact HR.
    pose proof (place_composites_rep H _ _ _ _ HRc E HP) as REP.
    destruct (place_composites_bound _ _ _ _ HRc (le_n _) E) as (B1 & B2).
    assert (NC : forall i, i < n_classes g -> exists c l, nth_error addrs i = Some l /\ nth_error (g_classes g) i = Some c /\ nth_error H i = Some (OClass (c_name c) l)).
    { intros i Hi. destruct (nth_error addrs i) as [l|] eqn:El; [|apply nth_error_None in El; unfold root in HL; lia].
      destruct (nth_error (g_classes g) i) as [c|] eqn:Ec; [|apply nth_error_None in Ec; unfold n_classes in Hi; lia].
      exists c, l. split; [reflexivity|]. split; [reflexivity|]. unfold H. rewrite nth_error_app1 by lia. unfold C.
      now rewrite (map_nth_error _ _ _ (nth_combine _ _ _ _ _ Ec El)). }
    assert (NE : forall i, n_classes g <= i < root g -> exists e l, nth_error addrs i = Some l /\ nth_error H i = Some (OEmbed (e_name e) l)).
    { intros i Hi. destruct (nth_error addrs i) as [l|] eqn:El; [|apply nth_error_None in El; lia].
      destruct (nth_error (g_embeds g) (i - n_classes g)) as [c|] eqn:Ec; [|apply nth_error_None in Ec; unfold root, n_embeds in Hi; lia].
      exists c, l. split; [reflexivity|]. unfold H. rewrite nth_error_app2 by lia. rewrite LC.
      rewrite nth_error_app1 by (rewrite LD; unfold root in Hi; lia). unfold D.
      assert (Es : nth_error (skipn (n_classes g) addrs) (i - n_classes g) = Some l) by (rewrite nth_skipn; rewrite <- El; f_equal; lia).
      now rewrite (map_nth_error _ _ _ (nth_combine _ _ _ _ _ Ec Es)). }
    assert (NG : exists l, nth_error addrs (root g) = Some l /\ nth_error H (root g) = Some (OGraph (List.seq 0 (n_classes g)) (List.seq (n_classes g) (n_embeds g)) l)).
    { destruct (nth_error addrs (root g)) as [l|] eqn:El; [|apply nth_error_None in El; lia].
      exists l. split; [reflexivity|]. unfold H. rewrite nth_error_app2 by (unfold root; lia). rewrite LC.
      rewrite nth_error_app2 by (unfold root; lia). rewrite LD. replace (root g - n_classes g - n_embeds g) with 0 by (unfold root; lia).
      cbn [app nth_error]. unfold G. now rewrite (nth_error_nth _ _ _ El). }
    split; [|split].
    - intros a b HE. rewrite LH.
      assert (A : exists o, nth_error H a = Some o /\ In b (children_of o)).
      { destruct HE as [a v HE|a v HE|a n ps b HE HI|a n ps b HE HI|a cs es ps b HE HI|a cs es ps b HE HI|a cs es ps b HE HI];
          eexists; (split; [exact HE|]); cbn [children_of]; try (now left); try exact HI; apply in_or_app; [now left|right..]; apply in_or_app; [now left|now right]. }
      destruct A as (o & Ho & Hb).
      assert (CASE : a < n_classes g \/ n_classes g <= a < root g \/ a = root g \/ root g < a) by lia.
      destruct CASE as [Ha|[Ha|[->|Ha]]].
      + destruct (NC _ Ha) as (c & l & El & _ & Eo). rewrite Eo in Ho. injection Ho as <-. cbn [children_of] in Hb.
        apply nth_error_In in El. exact (B1 _ _ El Hb).
      + destruct (NE _ Ha) as (c & l & El & Eo). rewrite Eo in Ho. injection Ho as <-. cbn [children_of] in Hb.
        apply nth_error_In in El. exact (B1 _ _ El Hb).
      + destruct NG as (l & El & Eo). rewrite Eo in Ho. injection Ho as <-. cbn [children_of] in Hb.
        apply in_app_or in Hb as [Hb|Hb]; [apply in_seq in Hb; unfold root; lia|].
        apply in_app_or in Hb as [Hb|Hb]; [apply in_seq in Hb; unfold root; lia|].
        apply nth_error_In in El. exact (B1 _ _ El Hb).
      + assert (Hi : a - base0 < length pool) by (assert (a < length H) by (apply nth_error_Some; congruence); lia).
        specialize (HP _ Hi). replace (base0 + (a - base0)) with a in HP by lia. rewrite Ho in HP. symmetry in HP.
        apply nth_error_In in HP. exact (B2 _ _ HP Hb).
    - rewrite LH. lia.
    - intros i ps Eps. destruct (Forall2_nth _ _ _ REP _ _ Eps) as (l & El & HF).
      assert (Hi : i < base0) by (rewrite <- HL; apply nth_error_Some; congruence).
      assert (CASE : i < n_classes g \/ n_classes g <= i < root g \/ i = root g) by lia.
      destruct CASE as [Ha|[Ha|Ha]].
      + destruct (NC _ Ha) as (c & l' & El' & _ & Eo). rewrite El in El'. injection El' as <-. eexists. split; [exact Eo|].
        split; [left; split; [eauto|exact Ha]|exact HF].
      + destruct (NE _ Ha) as (c & l' & El' & Eo). rewrite El in El'. injection El' as <-. eexists. split; [exact Eo|].
        split; [right; left; split; [eauto|exact Ha]|exact HF].
      + subst i. destruct NG as (l' & El' & Eo). rewrite El in El'. injection El' as <-. eexists. split; [exact Eo|].
        split; [right; right; split; [eauto|reflexivity]|exact HF].
  Qed.

  Lemma composites_at ps : In ps (composites g) -> exists i, nth_error (composites g) i = Some ps /\ i <= root g.
  Proof.
    intros H. apply In_nth_error in H as (i & E). exists i. split; [exact E|].
    assert (i < length (composites g)) by (apply nth_error_Some; congruence).
    unfold composites in H. rewrite !app_length, !map_length in H. cbn [length] in H. unfold root, n_classes, n_embeds. lia.
  Qed.

  Lemma composite_In r ps : composite g r ps -> In ps (composites g).
  Proof.
    intros [c Hc|e He|]; unfold composites; apply in_or_app.
    - left. now apply in_map.
    - right. apply in_or_app. left. now apply in_map.
    - right. apply in_or_app. right. now left.
  Qed.
  Lemma composites_composite ps : In ps (composites g) -> exists r, composite g r ps.
  Proof.
    unfold composites. intros H. apply in_app_or in H as [H|H]; [|apply in_app_or in H as [H|[<-|[]]]].
    - apply in_map_iff in H as (c & <- & Hc). eexists. now constructor.
    - apply in_map_iff in H as (c & <- & Hc). eexists. now constructor 2.
    - eexists. constructor 3.
  Qed.

  Lemma inside_step t n u : inside t n u -> forall v, (exists mn mx, u = TArray v mn mx) \/ u = TMap v -> inside t (S n) v.
  Proof. induction 1; intros w Hw; [|constructor; now apply IHinside..]. destruct Hw as [(mn & mx & ->)| ->]; constructor; constructor. Qed.

  (** What is reached from the graph. *)
  Definition reached (a : addr) : Prop := a <= root g \/ exists t ref, value_type g t ref /\ rep h a t.

  Lemma Forall2_In_l {A B} (R : A -> B -> Prop) l m : Forall2 R l m -> forall a, In a l -> exists b, In b m /\ R a b.
  Proof.
    induction 1 as [|x y l m Hxy H IH]; intros a Ha; [destruct Ha|]. destruct Ha as [<-|Ha]; [exists y; split; [now left|exact Hxy]|].
    destruct (IH _ Ha) as (b & Hb & HR'). exists b. split; [now right|exact HR'].
  Qed.
  Lemma Forall2_In_r {A B} (R : A -> B -> Prop) l m : Forall2 R l m -> forall b, In b m -> exists a, In a l /\ R a b.
  Proof.
    induction 1 as [|x y l m Hxy H IH]; intros a Ha; [destruct Ha|]. destruct Ha as [<-|Ha]; [exists x; split; [now left|exact Hxy]|].
    destruct (IH _ Ha) as (b & Hb & HR'). exists b. split; [now right|exact HR'].
  Qed.

  Lemma composites_length : length (composites g) = S (root g).
  Proof. unfold composites, root, n_classes, n_embeds. rewrite !app_length, !map_length. cbn [length]. lia. Qed.

  Lemma reached_edge a b : reached a -> edge h a b -> reached b.
  Proof.
    destruct heap_facts as (_ & _ & HC).
    assert (CASE : a <= root g -> edge h a b -> reached b).
    { intros Ha HE. destruct (nth_error (composites g) a) as [ps|] eqn:Eps.
      2:{ apply nth_error_None in Eps. rewrite composites_length in Eps. lia. }
      destruct (HC _ _ Eps) as (o & Eo & Hco & HF).
      assert (P : forall c, In c (props_of o) -> reached c).
      { intros c Hc. destruct (Forall2_In_l _ _ _ HF _ Hc) as (p & Hp & Hr). right.
        apply nth_error_In in Eps. destruct (composites_composite _ Eps) as (r & Hcomp).
        exists (p_type p), (r ++ s_ "/" ++ p_name p ++ levels 0). split; [|exact Hr]. econstructor; [exact Hcomp|exact Hp|constructor|reflexivity]. }
      destruct Hco as [((n & l & ->) & _)|[((n & l & ->) & _)|((l & ->) & _)]];
        destruct HE as [a v HE|a v HE|a m qs b HE HI|a m qs b HE HI|a cs es qs b HE HI|a cs es qs b HE HI|a cs es qs b HE HI];
        rewrite Eo in HE; try discriminate HE.
      + injection HE as <- <-. now apply P.
      + injection HE as <- <-. now apply P.
      + injection HE as <- <- <-. left. apply in_seq in HI. unfold root. lia.
      + injection HE as <- <- <-. left. apply in_seq in HI. unfold root. lia.
      + injection HE as <- <- <-. now apply P. }
    intros [Ha|(t & ref & Hv & Hrep)] HE; [now apply CASE|].
    destruct Hv as [r ps p n Hcomp Hp Hin ->].
    assert (IN : forall v, rep h b v -> (exists mn mx, t = TArray v mn mx) \/ t = TMap v -> reached b).
    { intros v Hb Ht. right. exists v. eexists. split; [|exact Hb]. econstructor; [exact Hcomp|exact Hp|eapply inside_step; eassumption|reflexivity]. }
    destruct Hrep as [a t q Eo Ht|a c v mn mx Eo Hc|a c v Eo Hc|a m Hlt|a m Hlt].
    4,5: apply CASE; [unfold root in *; lia|exact HE].
    all: destruct HE as [a w HE|a w HE|a m qs b HE HI|a m qs b HE HI|a cs es qs b HE HI|a cs es qs b HE HI|a cs es qs b HE HI];
      rewrite Eo in HE; try discriminate HE.
    - injection HE as <-. eapply IN; [exact Hc|]. left. now exists mn, mx.
    - injection HE as <-. eapply IN; [exact Hc|]. now right.
  Qed.

  Lemma reached_all a : reach h (root g) a -> reached a.
  Proof.
    assert (H : forall x y, reach h x y -> reached x -> reached y).
    { induction 1 as [|x y z HE _ IH]; intros Hx; [exact Hx|]. apply IH. eapply reached_edge; eassumption. }
    intros Ha. apply (H _ _ Ha). left. lia.
  Qed.

  Lemma reach_trans x y z : reach h x y -> reach h y z -> reach h x z.
  Proof. induction 1 as [|x y w HE _ IH]; intros H; [exact H|]. econstructor; [exact HE|now apply IH]. Qed.

  Lemma reach_type t ref : value_type g t ref -> exists a, reach h (root g) a /\ rep h a t.
  Proof.
    intros [r ps p n Hcomp Hp Hin _]. destruct heap_facts as (_ & _ & HC).
    destruct (composites_at _ (composite_In _ _ Hcomp)) as (i & Ei & Hi).
    destruct (HC _ _ Ei) as (o & Eo & Hco & HF). destruct (Forall2_In_r _ _ _ HF _ Hp) as (a & Ha & Hrep).
    assert (R1 : reach h (root g) i).
    { destruct (Nat.eq_dec i (root g)) as [->|Hne]; [constructor|].
      assert (Er : nth_error (composites g) (root g) = Some (g_props g)).
      { unfold composites. rewrite nth_error_app2; rewrite map_length; unfold root, n_classes, n_embeds; [|lia].
        rewrite nth_error_app2; rewrite map_length; [|lia]. replace (_ - _) with 0 by lia. reflexivity. }
      destruct (HC _ _ Er) as (o' & Eo' & Hco' & _).
      destruct Hco' as [(_ & Hlt)|[(_ & Hlt)|((l & ->) & _)]]; [unfold root in Hlt; lia|unfold root in Hlt; lia|].
      econstructor; [|constructor]. destruct (Nat.lt_ge_cases i (n_classes g)).
      - eapply e_graph_class; [exact Eo'|]. apply in_seq. lia.
      - eapply e_graph_embed; [exact Eo'|]. apply in_seq. unfold root in *. lia. }
    assert (R2 : edge h i a).
    { destruct Hco as [((m & l & ->) & _)|[((m & l & ->) & _)|((l & ->) & _)]]; cbn [props_of] in Ha.
      - eapply e_class; eassumption.
      - eapply e_embed; eassumption.
      - eapply e_graph_prop; eassumption. }
    assert (R3 : forall u k v, inside u k v -> forall x, rep h x u -> exists y, reach h x y /\ rep h y v).
    { induction 1 as [u|w mn mx k v _ IH|w k v _ IH]; intros x Hx.
      - exists x. split; [constructor|exact Hx].
      - inversion Hx as [? ? q E0 E1|? b ? ? ? E0 Hb| | |]; subst; [discriminate E1|]. destruct (IH _ Hb) as (y & Hy & Hv).
        exists y. split; [|exact Hv]. econstructor; [eapply e_array; exact E0|exact Hy].
      - inversion Hx as [? ? q E0 E1| |? b ? E0 Hb| |]; subst; [discriminate E1|]. destruct (IH _ Hb) as (y & Hy & Hv).
        exists y. split; [|exact Hv]. econstructor; [eapply e_map; exact E0|exact Hy]. }
    destruct (R3 _ _ _ Hin _ Hrep) as (y & Hy & Hv). exists y. split; [|exact Hv].
    eapply reach_trans; [exact R1|]. econstructor; [exact R2|exact Hy].
  Qed.

  Lemma graph_needs_spec q : q <> KClass -> q <> KEmbed -> q <> KGraph -> (graph_needs g q = true <-> occurs g q).
  Proof.
    intros N1 N2 N3. unfold graph_needs. fold h. destruct heap_facts as (WF & Hroot & HC).
    destruct (C28_needs_type h q (root g) (2 * length h + 2) WF Hroot (le_n _)) as (b & -> & Hb). rewrite Hb. clear b Hb. split.
    - intros (y & Hy & (o & Eo & Hk)). apply reached_all in Hy as [Hle|(t & ref & Hv & Hrep)].
      + exfalso. destruct (nth_error (composites g) y) as [ps|] eqn:Eps.
        2:{ apply nth_error_None in Eps. rewrite composites_length in Eps. lia. }
        destruct (HC _ _ Eps) as (o' & Eo' & Hco & _). rewrite Eo in Eo'. injection Eo' as <-.
        destruct Hco as [((m & l & ->) & _)|[((m & l & ->) & _)|((l & ->) & _)]]; cbn in Hk; congruence.
      + exists t, ref. split; [exact Hv|]. 
        destruct Hrep as [a t p E0 E1|a c v mn mx E0 Hc|a c v E0 Hc|a m Hlt|a m Hlt].
        * rewrite Eo in E0. injection E0 as ->. cbn in Hk. subst q. destruct t; cbn in E1; try discriminate; injection E1 as <-; reflexivity.
        * rewrite Eo in E0. injection E0 as ->. cbn in Hk. now subst q.
        * rewrite Eo in E0. injection E0 as ->. cbn in Hk. now subst q.
        * exfalso. destruct (nth_error (composites g) a) as [ps|] eqn:Eps.
          2:{ apply nth_error_None in Eps. rewrite composites_length in Eps. unfold root in *. lia. }
          destruct (HC _ _ Eps) as (o' & Eo' & Hco & _). rewrite Eo in Eo'. injection Eo' as <-.
          destruct Hco as [((m' & l & ->) & _)|[((m' & l & ->) & _)|((l & ->) & _)]]; cbn in Hk; congruence.
        * exfalso. destruct (nth_error (composites g) a) as [ps|] eqn:Eps.
          2:{ apply nth_error_None in Eps. rewrite composites_length in Eps. unfold root in *. lia. }
          destruct (HC _ _ Eps) as (o' & Eo' & Hco & _). rewrite Eo in Eo'. injection Eo' as <-.
          destruct Hco as [((m' & l & ->) & _)|[((m' & l & ->) & _)|((l & ->) & _)]]; cbn in Hk; congruence.
    - intros (t & ref & Hv & Hk). destruct (reach_type _ _ Hv) as (y & Hy & Hrep). exists y. split; [exact Hy|].
      destruct Hrep as [a t p E0 E1|a c v mn mx E0 Hc|a c v E0 Hc|a m Hlt|a m Hlt]; cbn in Hk; try discriminate Hk.
      + exists (OPrim p). split; [exact E0|]. destruct t; cbn in E1, Hk; try discriminate; injection E1 as <-; injection Hk as <-; reflexivity.
      + injection Hk as <-. now exists (OArray c).
      + injection Hk as <-. now exists (OMap c).
  Qed.
End Rep.

(** * Imports and uses *)
Lemma insert_perm a l : Permutation (insert_str a l) (a :: l).
Proof.
  induction l as [|b l IH]; [reflexivity|]. cbn [insert_str]. destruct (str_leb a b); [reflexivity|].
  rewrite IH. apply perm_swap.
Qed.
Lemma import_declarations_exact l : NoDup (import_declarations l) /\ forall p, In p (import_declarations l) <-> In p l.
Proof.
  assert (P : Permutation (import_declarations l) (nodup (list_eq_dec N.eq_dec) l)).
  { unfold import_declarations. induction (nodup _ l) as [|a m IH]; [reflexivity|]. cbn [fold_right]. rewrite insert_perm. now constructor. }
  split.
  - eapply Permutation_NoDup; [apply Permutation_sym, P|]. apply NoDup_nodup.
  - intros p. rewrite <- (nodup_In (list_eq_dec N.eq_dec) l). split; apply Permutation_in; [exact P|now apply Permutation_sym].
Qed.

Lemma In_when p b l : In p (when b l) <-> b = true /\ In p l.
Proof. destruct b; cbn; intuition discriminate. Qed.

(** A value of one of the types which are represented by the package time. *)
Definition timed (t : ty) : bool :=
  match t with TDate _ | TTime _ | TDatetime _ | TTimeZone | TDuration => true | _ => false end.

Lemma type_repr_uses_spec t p : In p (type_repr_uses t) <-> p = pkg_time /\ exists n u, inside t n u /\ timed u = true.
Proof.
  induction t; cbn [type_repr_uses].
  all: try (split; [intros [<-|[]]; split; [reflexivity|]; eexists 0, _; split; [constructor|reflexivity]
                   |intros (-> & _); now left]).
  all: try (split; [intros []|intros (_ & n & u & H & Hu); inversion H; subst; discriminate]).
  - rewrite IHt. split; intros (-> & n & u & H & Hu); split; try reflexivity.
    + exists (S n), u. split; [now constructor|exact Hu].
    + inversion H; subst; [discriminate|]. eauto.
  - rewrite IHt. split; intros (-> & n & u & H & Hu); split; try reflexivity.
    + exists (S n), u. split; [now constructor|exact Hu].
    + inversion H; subst; [discriminate|]. eauto.
Qed.

Definition is_int (t : ty) : bool := match t with TInt _ => true | _ => false end.
Definition within (t : ty) (P : ty -> bool) : Prop := exists n u, inside t n u /\ P u = true.

Lemma within_itself t P : P t = true -> within t P.
Proof. intros H. exists 0, t. split; [constructor|exact H]. Qed.
Lemma within_array v mn mx P : within v P -> within (TArray v mn mx) P.
Proof. intros (n & u & H & Hu). exists (S n), u. split; [now constructor|exact Hu]. Qed.
Lemma within_map v P : within v P -> within (TMap v) P.
Proof. intros (n & u & H & Hu). exists (S n), u. split; [now constructor|exact Hu]. Qed.
Lemma within_array_inv v mn mx P : within (TArray v mn mx) P -> P (TArray v mn mx) = true \/ within v P.
Proof. intros (n & u & H & Hu). inversion H; subst; [now left|right]. now exists n0, u. Qed.
Lemma within_map_inv v P : within (TMap v) P -> P (TMap v) = true \/ within v P.
Proof. intros (n & u & H & Hu). inversion H; subst; [now left|right]. now exists n0, u. Qed.

Definition parse_sound (t : ty) (refs : list str) (p : str) : Prop :=
  p = pkg_strings \/ p = pkg_fmt \/ In p refs \/ (p = pkg_math /\ within t is_int) \/
  (p = pkg_time /\ within t timed) \/ (p = pkg_strconv /\ within t is_array).

Lemma report_sound t refs p : In p (report_uses refs) -> parse_sound t refs p.
Proof.
  unfold report_uses, parse_sound. cbn [app]. intros [<-|H]; [now left|]. apply in_app_or in H as [H|[<-|[]]]; [now right; right; left|now right; left].
Qed.

Local Opaque report_uses.
Lemma parse_uses_sound t : forall refs p, In p (parse_uses t refs) -> parse_sound t refs p.
Proof.
  induction t; intros refs p H; cbn [parse_uses] in H;
    repeat (apply in_app_or in H as [H|H]);
    try (match type of H with In _ (match ?b with _ => _ end) => destruct b; [|now destruct H] end);
    try (now apply report_sound).
  all: try (destruct H as [<-|[]]; unfold parse_sound; try (now left);
            (right; right; right; left; split; [reflexivity|now apply within_itself]) ||
            (right; right; right; right; left; split; [reflexivity|now apply within_itself])).
  - apply type_repr_uses_spec in H as (-> & n & u & H & Hu). right; right; right; right; left. split; [reflexivity|].
    apply within_array. now exists n, u.
  - apply IHt in H as [->|[->|[H|[(-> & H)|[(-> & H)|(-> & H)]]]]]; unfold parse_sound.
    + now left.
    + now right; left.
    + apply in_app_or in H as [H|[<-|[]]]; [now right; right; left|]. do 5 right. split; [reflexivity|now apply within_itself].
    + right; right; right; left. split; [reflexivity|now apply within_array].
    + right; right; right; right; left. split; [reflexivity|now apply within_array].
    + do 5 right. split; [reflexivity|now apply within_array].
  - apply type_repr_uses_spec in H as (-> & n & u & H & Hu). right; right; right; right; left. split; [reflexivity|].
    apply within_map. now exists n, u.
  - apply IHt in H as [->|[->|[H|[(-> & H)|[(-> & H)|(-> & H)]]]]]; unfold parse_sound.
    + now left.
    + now right; left.
    + now right; right; left.
    + right; right; right; left. split; [reflexivity|now apply within_map].
    + right; right; right; right; left. split; [reflexivity|now apply within_map].
    + do 5 right. split; [reflexivity|now apply within_map].
  - right; right; left. exact H.
Qed.

Local Transparent report_uses.
Lemma report_strings refs : In pkg_strings (report_uses refs).
Proof. now left. Qed.
Lemma report_refs refs : incl refs (report_uses refs).
Proof. intros p H. right. cbn [app]. apply in_or_app. now left. Qed.

Local Opaque report_uses.
Lemma parse_uses_refs t refs : In pkg_strings (parse_uses t refs) /\ incl refs (parse_uses t refs).
Proof.
  destruct t; cbn [parse_uses]; (split; [try apply in_or_app; left; try apply report_strings; reflexivity || idtac
    |intros p Hp]); try apply in_or_app; try (left; apply report_refs; exact Hp); try (now apply report_refs); try (now right); try (now left).
Qed.

(** Dates and times other than durations. *)
Definition dated (t : ty) : bool := match t with TDate _ | TTime _ | TDatetime _ | TTimeZone => true | _ => false end.

Lemma parse_uses_complete t : forall refs,
  (within t is_int -> In pkg_math (parse_uses t refs)) /\
  (within t dated -> In pkg_time (parse_uses t refs)) /\
  (within t is_array -> In pkg_strconv (parse_uses t refs)).
Proof.
  induction t; intros refs; cbn [parse_uses].
  all: try (repeat split; intros (n & u & H & Hu); inversion H; subst; try discriminate;
            apply in_or_app; right; now left).
  - destruct (IHt (refs ++ [pkg_strconv])) as (H1 & H2 & H3).
    assert (L : forall p, In p (parse_uses t (refs ++ [pkg_strconv])) ->
                In p (report_uses refs ++ (if minimum_size then report_uses refs else []) ++ (if maximum_size then report_uses refs else []) ++
                      type_repr_uses t ++ parse_uses t (refs ++ [pkg_strconv]))) by (intros p Hp; do 4 (apply in_or_app; right); exact Hp).
    repeat split; intros H; apply L.
    + apply within_array_inv in H as [H|H]; [discriminate|now apply H1].
    + apply within_array_inv in H as [H|H]; [discriminate|now apply H2].
    + apply (proj2 (parse_uses_refs t (refs ++ [pkg_strconv]))). apply in_or_app. right. now left.
  - destruct (IHt refs) as (H1 & H2 & H3).
    assert (L : forall p, In p (parse_uses t refs) ->
                In p (report_uses refs ++ type_repr_uses t ++ parse_uses t refs)) by (intros p Hp; do 2 (apply in_or_app; right); exact Hp).
    repeat split; intros H; apply L; apply within_map_inv in H as [H|H]; try discriminate; auto.
Qed.

(** * The files *)
Definition some_type (g : graph) (P : ty -> bool) : Prop := exists t ref, value_type g t ref /\ P t = true.

Lemma some_type_within g P : some_type g P <-> exists ps p, In ps (composites g) /\ In p ps /\ within (p_type p) P.
Proof.
  split.
  - intros (t & ref & [r ps p n Hc Hp Hi _] & Ht). exists ps, p. split; [eapply composite_In; exact Hc|]. split; [exact Hp|]. now exists n, t.
  - intros (ps & p & Hps & Hp & n & t & Hi & Ht). destruct (composites_composite _ _ Hps) as (r & Hc).
    exists t. eexists. split; [|exact Ht]. econstructor; [exact Hc|exact Hp|exact Hi|reflexivity].
Qed.

Lemma some_type_kind g q P : (forall t, type_kind t = Some q <-> P t = true) -> (some_type g P <-> occurs g q).
Proof. intros H. split; intros (t & ref & Hv & Ht); exists t, ref; (split; [exact Hv|]); now apply H. Qed.

Lemma iterate_some g P : existsb (fun tr => P (fst tr)) (iterate_over_types g) = true <-> some_type g P.
Proof.
  rewrite existsb_exists. split.
  - intros ((t & ref) & H & Ht). exists t, ref. split; [now apply iterate_spec|exact Ht].
  - intros (t & ref & H & Ht). exists (t, ref). split; [now apply iterate_spec|exact Ht].
Qed.

Definition is_duration (t : ty) : bool := match t with TDuration => true | _ => false end.

Section Files.
  Variable g : graph.
  Hypothesis HR : resolved g.

  Lemma needs_some q P : (forall t, type_kind t = Some (KPrim q) <-> P t = true) ->
    (graph_needs g (KPrim q) = true <-> some_type g P).
  Proof. intros H. rewrite (some_type_kind _ _ _ H). apply graph_needs_spec; [exact HR|discriminate..]. Qed.

  Lemma needs_duration : graph_needs g (KPrim PDuration) = true <-> some_type g is_duration.
  Proof. apply needs_some. intros []; cbn; split; congruence. Qed.
  Lemma needs_integer : graph_needs g (KPrim PInteger) = true <-> some_type g is_int.
  Proof. apply needs_some. intros []; cbn; split; congruence. Qed.

  Lemma some_or P Q R : (forall t, R t = P t || Q t) -> (some_type g R <-> some_type g P \/ some_type g Q).
  Proof.
    intros H. split.
    - intros (t & ref & Hv & Ht). rewrite H in Ht. apply orb_true_iff in Ht as [Ht|Ht]; [left|right]; now exists t, ref.
    - intros [(t & ref & Hv & Ht)|(t & ref & Hv & Ht)]; exists t, ref; (split; [exact Hv|]); rewrite H, Ht; [reflexivity|apply orb_true_r].
  Qed.

  Definition is_date t := match t with TDate _ => true | _ => false end.
  Definition is_time t := match t with TTime _ => true | _ => false end.
  Definition is_datetime t := match t with TDatetime _ => true | _ => false end.
  Definition is_time_zone t := match t with TTimeZone => true | _ => false end.

  Lemma some_exists P Q : (forall t, P t = Q t) -> (some_type g P <-> some_type g Q).
  Proof. intros H. split; intros (t & ref & Hv & Ht); exists t, ref; (split; [exact Hv|]); congruence. Qed.

  Lemma needs_date : graph_needs g (KPrim PDate) = true <-> some_type g is_date.
  Proof. apply needs_some. intros []; cbn; split; congruence. Qed.
  Lemma needs_time : graph_needs g (KPrim PTime) = true <-> some_type g is_time.
  Proof. apply needs_some. intros []; cbn; split; congruence. Qed.
  Lemma needs_datetime : graph_needs g (KPrim PDatetime) = true <-> some_type g is_datetime.
  Proof. apply needs_some. intros []; cbn; split; congruence. Qed.
  Lemma needs_time_zone : graph_needs g (KPrim PTimeZone) = true <-> some_type g is_time_zone.
  Proof. apply needs_some. intros []; cbn; split; congruence. Qed.

  Lemma needs_dated : existsb (fun q => graph_needs g (KPrim q)) [PDate; PTime; PDatetime; PTimeZone] = true <-> some_type g dated.
  Proof.
    cbn [existsb]. rewrite !orb_true_iff, needs_date, needs_time, needs_datetime, needs_time_zone.
    rewrite (some_or is_date (fun t => is_time t || (is_datetime t || is_time_zone t)) dated) by (intros []; reflexivity).
    rewrite (some_or is_time (fun t => is_datetime t || is_time_zone t) (fun t => is_time t || (is_datetime t || is_time_zone t))) by reflexivity.
    rewrite (some_or is_datetime is_time_zone (fun t => is_datetime t || is_time_zone t)) by reflexivity. intuition discriminate.
  Qed.
  Lemma some_timed : some_type g timed <-> some_type g dated \/ some_type g is_duration.
  Proof. apply some_or. now intros []. Qed.
  Lemma needs_timed : existsb (fun q => graph_needs g (KPrim q)) [PDate; PTime; PDatetime; PDuration; PTimeZone] = true <-> some_type g timed.
  Proof.
    rewrite some_timed, <- needs_dated, <- needs_duration. cbn [existsb]. rewrite !orb_true_iff. intuition discriminate.
  Qed.

  (** ** types.go *)
  Lemma types_exact : exact_imports (types_imports g) (types_uses g).
  Proof.
    unfold types_imports. destruct (import_declarations_exact (when (existsb (fun q => graph_needs g (KPrim q)) [PDate; PTime; PDatetime; PDuration; PTimeZone]) [pkg_time])) as (ND & HI).
    split; [exact ND|]. intros p. rewrite HI, In_when, needs_timed, some_type_within.
    assert (U : In p (types_uses g) <-> exists ps q, In ps (composites g) /\ In q ps /\ In p (type_repr_uses (p_type q))).
    { unfold types_uses, composites. rewrite !in_app_iff, !in_flat_map. split.
      - intros [(e & He & H)|[(c & Hc & H)|(q & Hq & H)]].
        + apply in_flat_map in H as (q & Hq & H). exists (e_props e), q. rewrite !in_app_iff. split; [right; left; now apply in_map|]. auto.
        + apply in_flat_map in H as (q & Hq & H). exists (c_props c), q. rewrite !in_app_iff. split; [left; now apply in_map|]. auto.
        + exists (g_props g), q. rewrite !in_app_iff. split; [right; right; now left|]. auto.
      - intros (ps & q & Hps & Hq & H). rewrite !in_app_iff in Hps. destruct Hps as [Hps|[Hps|[<-|[]]]].
        + apply in_map_iff in Hps as (c & <- & Hc). right; left. exists c. split; [exact Hc|]. apply in_flat_map. eauto.
        + apply in_map_iff in Hps as (c & <- & Hc). left. exists c. split; [exact Hc|]. apply in_flat_map. eauto.
        + right; right. eauto. }
    rewrite U. cbn [In]. split.
    - intros ((ps & q & Hps & Hq & HW) & [<-|[]]). exists ps, q. split; [exact Hps|]. split; [exact Hq|]. now apply type_repr_uses_spec.
    - intros (ps & q & Hps & Hq & H). apply type_repr_uses_spec in H as (-> & HW). split; [|now left]. exists ps, q. auto.
  Qed.

  (** ** to_jsonable.go *)
  Lemma to_jsonable_exact : exact_imports (to_jsonable_imports g) (to_jsonable_uses g).
  Proof.
    unfold to_jsonable_imports. match goal with |- exact_imports (import_declarations ?l) _ => destruct (import_declarations_exact l) as (ND & HI) end.
    split; [exact ND|]. intros p. rewrite HI. unfold to_jsonable_uses. rewrite !in_app_iff, !In_when, in_flat_map.
    destruct (graph_needs g (KPrim PDuration)).
    - unfold duration_to_string_uses. cbn [In]. destruct (g_classes g) as [|c cs]; cbn [In].
      + split; [intuition discriminate|]. intros [H|(x & [] & _)]. right. split; [reflexivity|]. intuition.
      + split; [intuition|]. intros [H|(x & _ & [<-|[]])]; [right; split; [reflexivity|]; intuition|]. left. auto.
    - cbn [In]. destruct (g_classes g) as [|c cs]; cbn [In].
      + split; [intuition discriminate|]. intros [[]|(x & [] & _)].
      + split; [|intros [[]|(x & _ & [<-|[]])]; auto]. intros [(_ & [<-|[]])|(H & _)]; [|discriminate]. right. exists c. auto.
  Qed.

  (** ** The tests *)
  Lemma from_jsonable_test_exact : exact_imports (from_jsonable_test_imports g) (from_jsonable_test_uses g).
  Proof.
    unfold from_jsonable_test_imports. match goal with |- exact_imports (import_declarations ?l) _ => destruct (import_declarations_exact l) as (ND & HI) end.
    split; [exact ND|]. intros p. rewrite HI. reflexivity.
  Qed.
  Lemma to_jsonable_test_exact : exact_imports (to_jsonable_test_imports g) (to_jsonable_test_uses g).
  Proof.
    unfold to_jsonable_test_imports. match goal with |- exact_imports (import_declarations ?l) _ => destruct (import_declarations_exact l) as (ND & HI) end.
    split; [exact ND|]. intros p. rewrite HI. unfold when, to_jsonable_test_uses. destruct (graph_needs g (KPrim PDuration)); [|reflexivity]. cbn [In]. intuition.
  Qed.

  (** ** from_jsonable.go *)
  Lemma patterns_used : enumerate_patterns g <> [] <->
    existsb (fun tr => constrained (fst tr)) (iterate_over_types g) ||
    existsb (fun c => match c_id_pattern c with Some _ => true | None => false end) (g_classes g) = true.
  Proof.
    destruct (enumerate_spec g) as (_ & _ & HK). rewrite orb_true_iff, iterate_some, existsb_exists. split.
    - intros H. destruct (enumerate_patterns g) as [|[p i] l] eqn:E; [congruence|].
      assert (HP : pattern_of g p) by (apply HK; now left). destruct HP as [c Hc Ep|ref Hv|ref Hv].
      + right. exists c. split; [exact Hc|]. now rewrite Ep.
      + left. now exists (TStr (Some p)), ref.
      + left. now exists (TPath (Some p)), ref.
    - assert (H : forall p, pattern_of g p -> enumerate_patterns g <> []) by (intros p Hp E; apply HK in Hp; now rewrite E in Hp).
      intros [(t & ref & Hv & Ht)|(c & Hc & Ep)].
      + destruct t as [| | |[p|]|[p|]| | | | | | | | |]; try discriminate Ht; apply (H p); [now apply pattern_of_string with ref|now apply pattern_of_path with ref].
      + destruct (c_id_pattern c) as [p|] eqn:E; [|discriminate]. apply (H p). now apply pattern_of_id with c.
  Qed.

  Lemma property_uses_all p :
    (exists ps q, In ps (composites g) /\ In q ps /\ In p (parse_property_uses q)) ->
    (p = pkg_strings /\ exists t ref, value_type g t ref) \/ p = pkg_fmt \/ (p = pkg_math /\ some_type g is_int) \/
    (p = pkg_time /\ some_type g timed) \/ (p = pkg_strconv /\ some_type g is_array).
  Proof.
    intros (ps & q & Hps & Hq & H). rewrite !some_type_within. unfold parse_property_uses in H. apply in_app_or in H as [H|H].
    - destruct (_ && _); [|destruct H]. apply type_repr_uses_spec in H as (-> & H). do 3 right. left. split; [reflexivity|]. exists ps, q. auto.
    - apply parse_uses_sound in H as [->|[->|[[]|[(-> & H)|[(-> & H)|(-> & H)]]]]].
      + left. split; [reflexivity|]. destruct (composites_composite _ _ Hps) as (r & Hc). exists (p_type q). eexists.
        econstructor; [exact Hc|exact Hq|constructor|reflexivity].
      + now right; left.
      + right; right; left. split; [reflexivity|]. exists ps, q. auto.
      + do 3 right. left. split; [reflexivity|]. exists ps, q. auto.
      + do 4 right. split; [reflexivity|]. exists ps, q. auto.
  Qed.

  Lemma from_jsonable_uses_In p : In p (from_jsonable_uses g) <->
    (some_type g is_duration /\ In p duration_from_string_uses) \/ (enumerate_patterns g <> [] /\ p = pkg_regexp) \/
    p = pkg_fmt \/ (g_classes g <> [] /\ p = pkg_strings) \/
    exists ps q, In ps (composites g) /\ In q ps /\ In p (parse_property_uses q).
  Proof.
    unfold from_jsonable_uses, parse_graph_uses, composites. rewrite !in_app_iff, !in_flat_map, <- needs_duration.
    assert (C1 : (exists x : str * nat, In x (enumerate_patterns g) /\ In p [pkg_regexp]) <-> enumerate_patterns g <> [] /\ p = pkg_regexp).
    { split.
      - intros (x & Hx & [<-|[]]). split; [|reflexivity]. intros E. now rewrite E in Hx.
      - intros (Hne & ->). destruct (enumerate_patterns g) as [|x l]; [congruence|]. exists x. split; now left. }
    rewrite C1. clear C1. split.
    - intros [H|[H|[(c & Hc & H)|[(e & He & H)|[H|[(c & Hc & H)|(q & Hq & H)]]]]]].
      + left. destruct (graph_needs g (KPrim PDuration)); [|destruct H]. auto.
      + auto.
      + unfold parse_composite_uses in H. apply in_app_or in H as [[<-|[]]|H]; [now right; right; left|].
        apply in_flat_map in H as (q & Hq & H). do 4 right. exists (c_props c), q. rewrite !in_app_iff. split; [left; now apply in_map|]. auto.
      + unfold parse_composite_uses in H. apply in_app_or in H as [[<-|[]]|H]; [now right; right; left|].
        apply in_flat_map in H as (q & Hq & H). do 4 right. exists (e_props e), q. rewrite !in_app_iff. split; [right; left; now apply in_map|]. auto.
      + destruct H as [<-|[]]. now right; right; left.
      + assert (g_classes g <> []) by (intros E; now rewrite E in Hc). destruct (c_id_pattern c); cbn [app In] in H.
        * destruct H as [<-|[<-|[<-|[]]]]; [now right; right; left..|]. right; right; right; left. auto.
        * destruct H as [<-|[<-|[]]]; [now right; right; left|]. right; right; right; left. auto.
      + do 4 right. exists (g_props g), q. rewrite !in_app_iff. split; [right; right; now left|]. auto.
    - intros [(Hd & H)|[H|[->|[(Hne & ->)|(ps & q & Hps & Hq & H)]]]].
      + left. now rewrite Hd.
      + auto.
      + do 4 right. left. now left.
      + destruct (g_classes g) as [|c l]; [congruence|]. do 5 right. left. exists c. split; [now left|]. destruct (c_id_pattern c); cbn; auto.
      + rewrite !in_app_iff in Hps. destruct Hps as [Hps|[Hps|[<-|[]]]].
        * apply in_map_iff in Hps as (c & <- & Hc). right; right; left. exists c. split; [exact Hc|]. right. apply in_flat_map. eauto.
        * apply in_map_iff in Hps as (c & <- & Hc). right; right; right; left. exists c. split; [exact Hc|]. right. apply in_flat_map. eauto.
        * do 6 right. eauto.
  Qed.

  Lemma property_uses_complete P p : (forall t refs, within t P -> In p (parse_uses t refs)) -> some_type g P ->
    exists ps q, In ps (composites g) /\ In q ps /\ In p (parse_property_uses q).
  Proof.
    intros H HP. apply some_type_within in HP as (ps & q & Hps & Hq & HW). exists ps, q. split; [exact Hps|]. split; [exact Hq|].
    apply in_or_app. right. now apply H.
  Qed.

  Lemma from_jsonable_all p :
    In p (from_jsonable_imports g) <-> In p (from_jsonable_uses g) \/ p = pkg_strings.
  Proof.
    unfold from_jsonable_imports. match goal with |- In _ (import_declarations ?l) <-> _ => destruct (import_declarations_exact l) as (_ & ->) end.
    rewrite from_jsonable_uses_In, !in_app_iff, !In_when, needs_duration, needs_integer, needs_dated, <- patterns_used, iterate_some.
    unfold duration_from_string_uses. cbn [In]. split.
    - intros [[<-|[<-|[]]]|[(H & [<-|[]])|[(H & [<-|[]])|[(H & HI)|[(H & [<-|[]])|(H & [<-|[]])]]]]]; auto.
      + left. do 4 right. eapply property_uses_complete; [|exact H]. intros t refs. apply parse_uses_complete.
      + left. do 4 right. eapply property_uses_complete; [|exact H]. intros t refs. apply parse_uses_complete.
      + left. left. split; [exact H|]. intuition.
      + left. do 4 right. eapply property_uses_complete; [|exact H]. intros t refs. apply parse_uses_complete.
    - intros [[(H & HI)|[(H & ->)|[->|[(H & ->)|H]]]]| ->].
      + assert (CASES : p = pkg_fmt \/ p = pkg_strings \/ p = pkg_math \/ p = pkg_time \/ p = pkg_regexp \/ p = pkg_strconv) by intuition.
        destruct CASES as [->|[->|CASES]]; [auto..|]. do 3 right. left. split; [exact H|]. intuition.
      + do 4 right. left. auto.
      + left. auto.
      + left. auto.
      + apply property_uses_all in H as [(-> & _)|[->|[(-> & H)|[(-> & H)|(-> & H)]]]].
        * left. auto.
        * left. auto.
        * right. left. auto.
        * apply some_timed in H as [H|H]; [do 2 right; left; auto|]. do 3 right. left. auto.
        * do 5 right. auto.
      + left. auto.
  Qed.

  Lemma strings_used : In pkg_strings (from_jsonable_uses g) <-> g_classes g <> [] \/ exists t ref, value_type g t ref.
  Proof.
    rewrite from_jsonable_uses_In. split.
    - intros [((t & ref & Hv & _) & _)|[(_ & E)|[E|[(H & _)|H]]]]; try discriminate E; [right; eauto|now left|].
      apply property_uses_all in H as [(_ & H)|[E|[(E & _)|[(E & _)|(E & _)]]]]; try discriminate E. now right.
    - intros [H|(t & ref & Hv)]; [now right; right; right; left|]. do 4 right.
      eapply property_uses_complete with (P := fun _ => true); [|exists t, ref; auto]. intros u refs _. apply (proj1 (parse_uses_refs u refs)).
  Qed.

  Lemma from_jsonable_NoDup : NoDup (from_jsonable_imports g).
  Proof. apply import_declarations_exact. Qed.
End Files.
