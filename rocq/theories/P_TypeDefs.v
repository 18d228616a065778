(** Proofs about the definitions of types in C++ and Go. *)
From Coq Require Import String List Arith NArith ZArith Bool Lia.
From Verif Require Import Base M_Naming M_Schema M_TypeDefs S_Conform S_TypeDefs P_GoImports.
From Verif Require M_GoGen.
Import ListNotations.
Open Scope list_scope.

Lemma cpp_fields_In t ps : In t (cpp_fields ps) -> exists p, In p ps /\ (t = cpp_type_repr (p_type p) \/ t = COptional (cpp_type_repr (p_type p))).
Proof.
  unfold cpp_fields. intros H. apply in_map_iff in H as (p & <- & Hp). exists p. split; [exact Hp|]. destruct (p_optional p); auto.
Qed.

Lemma contains_repr t n : cpp_contains (cpp_type_repr t) n <-> t = TEmbed n.
Proof.
  split; [|intros ->; constructor]. destruct t; cbn [cpp_type_repr]; intros H; inversion H; subst; reflexivity.
Qed.
Lemma contains_field t ps n : In t (cpp_fields ps) -> cpp_contains t n -> exists p, In p ps /\ p_type p = TEmbed n.
Proof.
  intros H Hc. apply cpp_fields_In in H as (p & Hp & [->| ->]).
  - exists p. split; [exact Hp|]. now apply contains_repr.
  - inversion Hc; subst. exists p. split; [exact Hp|]. now apply contains_repr.
Qed.
Lemma field_contains p ps n : In p ps -> p_type p = TEmbed n -> exists t, In t (cpp_fields ps) /\ cpp_contains t n.
Proof.
  intros Hp E. eexists. split; [unfold cpp_fields; apply in_map_iff; exists p; split; [reflexivity|exact Hp]|].
  rewrite E. cbn [cpp_type_repr]. destruct (p_optional p); repeat constructor.
Qed.

Lemma mentions_repr g t n : ty_resolved g t -> cpp_mentions (cpp_type_repr t) n ->
  In n (map c_name (g_classes g)) \/ In n (map e_name (g_embeds g)).
Proof.
  induction t; cbn [cpp_type_repr ty_resolved]; intros HR H; inversion H; subst; auto.
  - inversion H1; subst. left. now apply find_class_name.
  - right. now apply find_embed_name.
Qed.

(** A split of a list whose first part has no definitions. *)
Lemma split_defines decls : (forall m fs, ~ In (Defines m fs) decls) ->
  forall rest before m fs after, decls ++ rest = before ++ Defines m fs :: after ->
  exists b, before = decls ++ b /\ rest = b ++ Defines m fs :: after.
Proof.
  induction decls as [|d decls IH]; intros H rest before m fs after E; [exists before; auto|].
  destruct before as [|x before]; cbn in E; injection E as E1 E2.
  - exfalso. apply (H m fs). left. congruence.
  - subst x. apply IH in E2 as (b & -> & ->); [|intros m' fs' HI; apply (H m' fs'); now right]. exists b. auto.
Qed.

Definition decls (g : graph) : list header_item :=
  Declares (g_name g) :: map (fun c => Declares (c_name c)) (g_classes g) ++ map (fun e => Declares (e_name e)) (g_embeds g).
Definition defs (g : graph) : list header_item :=
  map (fun e => Defines (e_name e) (cpp_fields (e_props e))) (g_embeds g) ++
  map (fun c => Defines (c_name c) (cpp_fields (c_props c))) (g_classes g) ++
  [Defines (g_name g) (cpp_fields (g_props g))].
Lemma header_split g : header g = decls g ++ defs g.
Proof. unfold header, decls, defs. cbn [app]. now rewrite <- !app_assoc. Qed.
Lemma decls_no_defs g m fs : ~ In (Defines m fs) (decls g).
Proof.
  unfold decls. cbn [In]. rewrite in_app_iff, !in_map_iff.
  intros [E|[(c & E & _)|(e & E & _)]]; discriminate.
Qed.

Lemma defs_In g d : In d (defs g) -> exists n ps, In ps (composites g) /\ d = Defines n (cpp_fields ps).
Proof.
  unfold defs, composites. rewrite !in_app_iff, !in_map_iff. intros [(e & <- & He)|[(c & <- & Hc)|[<-|[]]]].
  - exists (e_name e), (e_props e). split; [|reflexivity]. rewrite !in_app_iff. right. left. now apply in_map.
  - exists (c_name c), (c_props c). split; [|reflexivity]. rewrite !in_app_iff. left. now apply in_map.
  - exists (g_name g), (g_props g). split; [|reflexivity]. rewrite !in_app_iff. right. right. now left.
Qed.

Lemma header_declared g : resolved g -> declared_before (header g).
Proof.
  intros HR before m fields after t n E Ht Hn. rewrite header_split in E.
  apply split_defines in E as (b & -> & E); [|apply decls_no_defs]. apply in_or_app. left.
  assert (HI : In (Defines m fields) (defs g)) by (rewrite E; apply in_elt).
  apply defs_In in HI as (m' & ps & Hps & HE). injection HE as <- ->.
  apply cpp_fields_In in Ht as (p & Hp & Ht).
  assert (HM : cpp_mentions (cpp_type_repr (p_type p)) n) by (destruct Ht as [->| ->]; [exact Hn|now inversion Hn]).
  apply (mentions_repr g) in HM; [|eapply HR; eauto]. unfold decls. right. apply in_or_app.
  destruct HM as [HM|HM]; apply in_map_iff in HM as (c & <- & Hc); [left|right]; apply in_map_iff; eauto.
Qed.

(** Splits of a concatenation. *)
Lemma app_split {A} (l1 l2 before after : list A) x : l1 ++ l2 = before ++ x :: after ->
  (exists a, l1 = before ++ x :: a) \/ (exists b, before = l1 ++ b /\ l2 = b ++ x :: after).
Proof.
  revert before. induction l1 as [|y l1 IH]; intros before E; [right; exists before; auto|].
  destruct before as [|z before]; cbn in E; injection E as -> E.
  - left. exists l1. reflexivity.
  - apply IH in E as [(a & ->)|(b & -> & ->)]; [left; exists a; auto|right; exists b; auto].
Qed.
Lemma map_split {A B} (f : A -> B) l before y after : map f l = before ++ y :: after ->
  exists b x a, l = b ++ x :: a /\ before = map f b /\ y = f x.
Proof.
  revert before. induction l as [|z l IH]; intros [|w before] E; cbn in E; try discriminate; injection E as <- E.
  - exists [], z, l. auto.
  - apply IH in E as (b & x & a & -> & -> & ->). exists (z :: b), x, a. auto.
Qed.

Lemma header_defined g : resolved g -> (defined_before (header g) <-> embeds_in_order g).
Proof.
  intros HR. split.
  - intros H before e after p n E Hp Ep. destruct (field_contains _ _ _ Hp Ep) as (t & Ht & Hc).
    specialize (H (decls g ++ map (fun e => Defines (e_name e) (cpp_fields (e_props e))) before) (e_name e) (cpp_fields (e_props e))
      (map (fun e => Defines (e_name e) (cpp_fields (e_props e))) after ++ map (fun c => Defines (c_name c) (cpp_fields (c_props c))) (g_classes g) ++ [Defines (g_name g) (cpp_fields (g_props g))]) t n).
    destruct H as (fs & HI); [|exact Ht|exact Hc|].
    + rewrite header_split. unfold defs. rewrite E, map_app. cbn [map]. now rewrite <- !app_assoc.
    + apply in_app_or in HI as [HI|HI]; [now apply decls_no_defs in HI|]. apply in_map_iff in HI as (e' & HE & He'). injection HE as <- _.
      now apply in_map.
  - intros H before m fields after t n E Ht Hc. rewrite header_split in E.
    apply split_defines in E as (b & -> & E); [|apply decls_no_defs]. unfold defs in E.
    apply app_split in E as [(a & E)|(b' & -> & E)].
    + apply map_split in E as (be & e & ae & Eg & -> & HE). injection HE as -> ->.
      destruct (contains_field _ _ _ Ht Hc) as (p & Hp & Ep). specialize (H _ _ _ _ _ Eg Hp Ep).
      apply in_map_iff in H as (e' & <- & He'). exists (cpp_fields (e_props e')). apply in_or_app. right.
      apply in_map_iff. eauto.
    + assert (HI : In (Defines m fields) (defs g)) by (unfold defs; rewrite E, app_assoc; apply in_elt).
      apply defs_In in HI as (m' & ps & Hps & HE). injection HE as <- ->.
      destruct (contains_field _ _ _ Ht Hc) as (p & Hp & Ep).
      assert (HN := HR _ _ Hps Hp). rewrite Ep in HN. cbn in HN. apply find_embed_name in HN. apply in_map_iff in HN as (e & <- & He).
      exists (cpp_fields (e_props e)). apply in_or_app. right. apply in_or_app. left. apply in_map_iff. eauto.
Qed.

(** * Go *)
Lemma go_named t n : go_type_repr t = GNamed n <-> t = TEmbed n.
Proof. destruct t; cbn; split; congruence. Qed.
Lemma go_field ps n : In (GNamed n) (map go_property_type ps) <-> exists p, In p ps /\ p_optional p = false /\ p_type p = TEmbed n.
Proof.
  rewrite in_map_iff. split.
  - intros (p & E & Hp). exists p. split; [exact Hp|]. unfold go_property_type in E. destruct (p_optional p).
    + exfalso. destruct (M_GoGen.is_pointer_type (p_type p)) eqn:HP; [|discriminate]. apply go_named in E. rewrite E in HP. discriminate.
    + split; [reflexivity|]. now apply go_named.
  - intros (p & Hp & Ho & E). exists p. split; [|exact Hp]. unfold go_property_type. rewrite Ho, E. reflexivity.
Qed.

Section Go.
  Variable g : graph.
  (** The names of the structures are different. *)
  Hypothesis ND : NoDup (g_name g :: map c_name (g_classes g) ++ map e_name (g_embeds g)).
  Hypothesis HR : resolved g.

  Lemma go_contains_cases m n : go_contains (go_structs g) m n ->
    In n (map e_name (g_embeds g)) /\ (requires g m n \/ ~ In m (map e_name (g_embeds g))).
  Proof.
    intros (fields & HI & Hn).
    assert (NDe : forall x, In x (map e_name (g_embeds g)) -> x <> g_name g /\ ~ In x (map c_name (g_classes g))).
    { intros x Hx. inversion ND as [|? ? N1 N2]; subst. split.
      - intros ->. apply N1, in_or_app. now right.
      - intros Hc. clear N1. induction (map c_name (g_classes g)) as [|y l IH]; [exact Hc|]. inversion N2 as [|? ? N3 N4]; subst.
        destruct Hc as [<-|Hc]; [apply N3, in_or_app; now right|]. apply IH; auto. constructor; [|exact N4].
        inversion ND as [|? ? N5 N6]; subst. intros H. apply N5. now right. }
    assert (RES : forall ps p, In ps (composites g) -> In p ps -> p_type p = TEmbed n -> In n (map e_name (g_embeds g))).
    { intros ps p Hps Hp Ep. assert (H := HR _ _ Hps Hp). rewrite Ep in H. now apply find_embed_name. }
    unfold go_structs in HI. rewrite !in_app_iff, !in_map_iff in HI.
    destruct HI as [(e & E & He)|[(c & E & Hc)|[E|[]]]]; injection E as <- <-; apply go_field in Hn as (p & Hp & Ho & Ep).
    - split; [eapply (RES (e_props e)); eauto; unfold composites; rewrite !in_app_iff; right; left; now apply in_map|].
      left. econstructor; eauto.
    - split; [eapply (RES (c_props c)); eauto; unfold composites; rewrite !in_app_iff; left; now apply in_map|].
      right. intros H. apply NDe in H as (_ & H). apply H. now apply in_map.
    - split; [eapply (RES (g_props g)); eauto; unfold composites; rewrite !in_app_iff; right; right; now left|].
      right. intros H. apply NDe in H as (H & _). now apply H.
  Qed.

  Lemma go_deep_requires m n : go_contains_deep (go_structs g) m n -> In m (map e_name (g_embeds g)) -> requires g m n.
  Proof.
    induction 1 as [m n H|m n o H Hd IH]; intros Hm; destruct (go_contains_cases _ _ H) as (Hn & [Hr|Hr]); try contradiction.
    - exact Hr.
    - econstructor 2; [exact Hr|now apply IH].
  Qed.
  Lemma go_deep_target m n : go_contains_deep (go_structs g) m n -> In n (map e_name (g_embeds g)).
  Proof. induction 1 as [m n H|m n o H Hd IH]; [now apply go_contains_cases in H|exact IH]. Qed.
  Lemma requires_deep m n : requires g m n -> go_contains_deep (go_structs g) m n.
  Proof.
    induction 1 as [e p n He Hp Ho Ep|m n o _ IH1 _ IH2].
    - constructor. exists (map go_property_type (e_props e)). split; [unfold go_structs; apply in_or_app; left; apply in_map_iff; eauto|].
      apply go_field. eauto.
    - clear -IH1 IH2. induction IH1 as [m n H|m n k H Hd IH]; [econstructor 2; eauto|]. econstructor 2; [exact H|now apply IH].
  Qed.
  Lemma go_finite_iff : go_finite (go_structs g) <-> forall n, ~ requires g n n.
  Proof.
    split; intros H n Hn; apply (H n).
    - now apply requires_deep.
    - apply go_deep_requires; [exact Hn|]. now apply go_deep_target in Hn.
  Qed.
End Go.
