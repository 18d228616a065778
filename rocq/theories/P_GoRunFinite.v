(** Running the generated Go parsers: the structures have zero values if none requires itself. *)
From Coq Require Import String List Arith NArith ZArith Bool Lia.
From Verif Require Import Base M_Naming M_Errors M_Schema M_Dec M_TypeGraph M_Walk M_GoImports M_Duration M_GoGen M_AutoID S_Scope M_Scope M_GoScope
  S_TypeGraph S_Walk S_Conform S_Common S_GoGen P_Common P_PyScope.
From Verif Require M_TypeDefs S_TypeDefs.
From Verif Require Import S_Compare S_GoTyping M_GoTyping P_GoTyping S_GoRun S_GoMemory P_GoRun P_GoRunParse P_GoRunValue P_GoRunSetup.
Import ListNotations.
Open Scope list_scope.
Local Open Scope nat_scope.

Section Finite.
  Variable X : gext.
  Variable g : graph.
  Notation structs := (go_structs g).
  Notation zero := (zero X structs).
  Hypothesis HR : resolved g.
  Hypothesis Hstructs : NoDup (keys structs).
  Hypothesis Hcapital : forall x, In x (keys structs) -> capital_name x.

  Definition has_zero (t : S_GoTyping.gtype) : Prop := exists n z, zero n t = Some z.

  Lemma fields_at (fields : list (str * S_GoTyping.gtype)) : (forall ft, In ft fields -> has_zero (snd ft)) -> exists n, forall ft, In ft fields -> exists z, zero n (snd ft) = Some z.
  Proof.
    induction fields as [|ft fields IH]; intros H; [exists 0; intros ft []|]. destruct IH as [n Hn]; [intros x Hx; apply H; now right|].
    destruct (H ft (or_introl eq_refl)) as (m & z & Hz). exists (n + m). intros x [<-|Hx].
    - exists z. apply (zero_more X g m); [lia|exact Hz].
    - destruct (Hn x Hx) as [y Hy]. exists y. apply (zero_more X g n); [lia|exact Hy].
  Qed.
  Lemma struct_zero x fields : In (x, fields) structs -> (forall ft, In ft fields -> has_zero (snd ft)) -> has_zero (GNamed x).
  Proof.
    intros Hin H. destruct (fields_at _ H) as [n Hn]. exists (S n). cbn [S_GoRun.zero]. destruct (str_eqb x (s_ "time.Duration")); [now eexists|].
    rewrite (lookup_nodup _ _ _ Hstructs Hin).
    assert (HF : exists l, fold_right (fun ft acc => match zero n (snd ft), acc with Some z, Some l => Some ((fst ft, z) :: l) | _, _ => None end) (Some []) fields = Some l).
    { clear Hin H. induction fields as [|ft fields IH]; [now exists []|]. cbn [fold_right]. destruct (Hn ft (or_introl eq_refl)) as [z ->].
      destruct IH as [l ->]; [intros y Hy; apply Hn; now right|]. now eexists. }
    destruct HF as [l ->]. now eexists.
  Qed.
  (** All types but embeddable structures have a zero value. *)
  Lemma property_zero p : (forall n, p_optional p = false -> p_type p = TEmbed n -> has_zero (GNamed (ucamel n))) -> has_zero (snd (field_of p)).
  Proof.
    intros H. cbn. unfold go_field_ty.
    assert (HT : exists z, zero 1 t_time = Some z).
    { cbn. destruct (lookup _ structs) as [fs|] eqn:E; [|eexists; reflexivity]. exfalso. apply lookup_In, (in_map fst), Hcapital in E as (a & r & E & Ha). injection E as <- _. discriminate. }
    destruct (p_optional p); [destruct (is_pointer_type (p_type p)) eqn:Ep; [destruct (p_type p); try discriminate|]; exists 1; eexists; reflexivity|].
    destruct (p_type p) eqn:Et; try (exists 1; eexists; reflexivity); try (exists 1; exact HT). now apply H.
  Qed.

  Hypothesis Hacyclic : forall n, ~ S_TypeDefs.requires g n n.

  (** [visited] are the structures which require the one at hand. *)
  Lemma embed_zero : forall k visited e, In e (g_embeds g) -> NoDup visited -> incl visited (map e_name (g_embeds g)) ->
    (forall x, In x visited -> S_TypeDefs.requires g x (e_name e)) -> length (g_embeds g) <= k + length visited -> has_zero (GNamed (ucamel (e_name e))).
  Proof.
    induction k as [|k IH]; intros visited e He Hnd Hincl Hreq Hlen.
    - exfalso. assert (Hall : In (e_name e) visited).
      { apply (NoDup_length_incl (l := visited) (l' := map e_name (g_embeds g)) Hnd); [rewrite map_length; exact Hlen|exact Hincl|now apply in_map]. }
      exact (Hacyclic _ (Hreq _ Hall)).
    - apply (struct_zero _ _ (embed_struct g e He)). intros ft Hft. apply in_map_iff in Hft as (p & <- & Hp). apply property_zero. intros n Ho Et.
      assert (Hn : S_TypeDefs.requires g (e_name e) n) by (eapply S_TypeDefs.requires_property; eauto).
      assert (Hres := HR (e_props e) p ltac:(unfold composites; rewrite !in_app_iff; right; left; now apply in_map) Hp). rewrite Et in Hres. cbn in Hres.
      destruct (find_embed g n) as [e'|] eqn:Ef; [|contradiction]. apply find_some in Ef as [He' En]. apply str_eqb_eq in En. subst n.
      apply (IH (e_name e :: visited) e' He').
      + constructor; [|exact Hnd]. intros Hv. exact (Hacyclic _ (Hreq _ Hv)).
      + intros x [<-|Hx]; [now apply in_map|now apply Hincl].
      + intros x [<-|Hx]; [exact Hn|]. eapply S_TypeDefs.requires_nested; [apply Hreq, Hx|exact Hn].
      + cbn. lia.
  Qed.
  Lemma properties_zero ps p : In ps (composites g) -> In p ps -> has_zero (snd (field_of p)).
  Proof.
    intros Hps Hp. apply property_zero. intros n _ Et. assert (Hres := HR ps p Hps Hp). rewrite Et in Hres. cbn in Hres.
    destruct (find_embed g n) as [e|] eqn:Ef; [|contradiction]. apply find_some in Ef as [He En]. apply str_eqb_eq in En. subst n.
    apply (embed_zero (length (g_embeds g)) [] e He); [constructor|intros x []|intros x []|cbn; lia].
  Qed.
  Lemma structures_finite x : In x (keys structs) -> exists n z, zero n (GNamed x) = Some z.
  Proof.
    intros Hx. apply in_map_iff in Hx as ([y fields] & <- & Hin). apply (struct_zero y fields Hin). unfold go_structs in Hin. rewrite !in_app_iff in Hin. intros ft Hft.
    destruct Hin as [Hin|[Hin|[Hin|[]]]].
    - apply in_map_iff in Hin as (e & E & He). injection E as <- <-. apply in_map_iff in Hft as (p & <- & Hp). apply (properties_zero (e_props e)); [|exact Hp].
      unfold composites. rewrite !in_app_iff. right. left. now apply in_map.
    - apply in_map_iff in Hin as (c & E & Hc). injection E as <- <-. destruct Hft as [<-|Hft]; [exists 1; eexists; reflexivity|]. apply in_map_iff in Hft as (p & <- & Hp).
      apply (properties_zero (c_props c)); [|exact Hp]. unfold composites. rewrite !in_app_iff. left. now apply in_map.
    - injection Hin as <- <-. apply in_app_or in Hft as [Hft|Hft].
      + apply in_map_iff in Hft as (c & <- & Hc). exists 1; eexists; reflexivity.
      + apply in_map_iff in Hft as (p & <- & Hp). apply (properties_zero (g_props g)); [|exact Hp]. unfold composites. rewrite !in_app_iff. right. right. now left.
  Qed.
End Finite.
