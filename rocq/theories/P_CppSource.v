(** Proofs about the names in the generated C++ source. *)
From Coq Require Import String List Arith NArith ZArith Bool Lia.
From Verif Require Import Base M_Naming M_Schema M_Dec M_Text M_TypeGraph M_Walk M_GoImports M_GoGen S_Scope M_Scope M_GoScope M_CppScope
  S_TypeGraph S_Conform S_Walk S_GoImports S_LangValid P_Common P_AutoID P_TypeGraph P_Walk P_GoImports P_References P_Naming P_LangValid
  P_Scope P_PyScope P_BlockScope P_GoFunctions P_CppScope P_CppSerialize P_CppFunctions.
Import ListNotations.
Open Scope list_scope.
Local Open Scope nat_scope.

Lemma after_declarations {A B} (P Q before after : list (A * option B)) e f :
  (forall x, In x P -> snd x = None) -> P ++ Q = before ++ (e, Some f) :: after ->
  exists rest, before = P ++ rest /\ Q = rest ++ (e, Some f) :: after.
Proof.
  revert before. induction P as [|x P IH]; intros before HP E; [exists before; split; [reflexivity|exact E]|].
  destruct before as [|y before]; cbn [app] in E.
  - injection E as -> _. specialize (HP _ (or_introl eq_refl)). discriminate.
  - injection E as <- E. destruct (IH before (fun z Hz => HP z (or_intror Hz)) E) as (rest & -> & HQ). exists rest. split; [reflexivity|exact HQ].
Qed.

Section Source.
  Variable cpp : cpp_conf.
  Variable g : graph.
  Variable spaces : list str.
  Hypothesis HR : resolved g.
  Hypothesis HN : NoDup (map c_name (g_classes g)).
  Hypothesis Hplural : forall c, In c (g_classes g) -> capital_name (c_plural c).
  Hypothesis Hname : forall n, In n (structure_names g) -> capital_name n.
  Hypothesis Hcname : forall n, In n (structure_names g) -> exists i, upper_camel n i.
  Hypothesis HNplural : NoDup (map lower (map c_plural (g_classes g))).
  Hypothesis Htypes : NoDup (map ucamel (structure_names g)).
  Hypothesis Hapart : cpp_names_apart spaces g.

  Definition with_id (c : cls) : bool := match c_id_pattern c with Some _ => true | None => false end.
  Definition id_spaces : list (entity * option function) :=
    flat_map (fun c => match c_id_pattern c with Some _ => [(Within (cpp_id_space c) (s_ "kID"), None)] | None => [] end) (g_classes g).
  Lemma id_spaces_map : id_spaces = map (fun c => (Within (cpp_id_space c) (s_ "kID"), None)) (filter with_id (g_classes g)).
  Proof.
    unfold id_spaces. generalize (g_classes g) as l. induction l as [|c l IH]; [reflexivity|]. cbn [flat_map filter]. rewrite IH. unfold with_id at 2. destruct (c_id_pattern c); reflexivity.
  Qed.

  (** The composites *)
  Lemma composite_names_spec : map (fun x => fst (fst x)) (cpp_composites g) = map c_name (g_classes g) ++ map e_name (g_embeds g).
  Proof.
    unfold cpp_composites. rewrite map_app, !map_map. cbn [fst snd]. f_equal.
    - rewrite <- (map_map fst c_name). f_equal. generalize 0 at 1. generalize (g_classes g) as l. induction l as [|c l IH]; intros k; [reflexivity|]. cbn. now rewrite IH.
    - rewrite <- (map_map fst e_name). f_equal. generalize (length (g_classes g)). generalize (g_embeds g) as l. induction l as [|c l IH]; intros k; [reflexivity|]. cbn. now rewrite IH.
  Qed.
  Lemma composite_name x : In x (cpp_composites g) -> In (fst (fst x)) (structure_names g).
  Proof.
    intros H. right. rewrite <- composite_names_spec. now apply (in_map (fun x => fst (fst x))).
  Qed.
  Lemma structure_composite n : In n (structure_names g) -> n = g_name g \/ exists x, In x (cpp_composites g) /\ fst (fst x) = n.
  Proof.
    intros [<-|H]; [now left|]. right. rewrite <- composite_names_spec in H. apply in_map_iff in H as (x & E & Hx). now exists x.
  Qed.
  Lemma composite_parts x : In x (cpp_composites g) ->
    exists k r, nth_error (composites g) k = Some (snd x) /\ k < root g /\ snd (fst x) = references_of g k /\ composite g r (snd x).
  Proof.
    unfold cpp_composites. rewrite in_app_iff, !in_map_iff. intros [([c k] & <- & Hc)|([e k] & <- & He)]; cbn [fst snd].
    - apply combine_seq_nth in Hc as (j & -> & Hc). destruct (class_at g j c Hc) as [Hk Hr]. exists j, (c_ref c). split; [exact Hk|]. split; [exact Hr|]. split; [reflexivity|].
      constructor. now apply nth_error_In in Hc.
    - apply combine_seq_nth in He as (j & -> & He). destruct (embed_at g j e He) as [Hk Hr]. exists (length (g_classes g) + j), (e_ref e). split; [exact Hk|]. split; [exact Hr|]. split; [reflexivity|].
      constructor. now apply nth_error_In in He.
  Qed.
  Lemma capital_type n : In n (structure_names g) -> capital_name (ucamel n).
  Proof. intros H. destruct (Hcname n H) as (i & Hi). rewrite (ucamel_right _ _ Hi). now apply (upper_initial n); [|apply Hname]. Qed.

  (** ** The items *)
  Definition first_part : list (entity * option function) :=
    [(Overload (s_ "message") [], None)] ++
    (if cpp_needs_duration g then [(Within (s_ "re") (s_ "kDuration"), None)] else []) ++
    id_spaces ++
    (if cpp_needs_duration g then [(Overload (s_ "duration_from_string") [], None)] else []) ++
    [(Overload (s_ "value_type_to_string") [], None)].
  Definition second_part : list (entity * option function) :=
    (if cpp_ctime cpp && cpp_needs_date g then [(Overload (s_ "tm_to_string") [], None)] else []) ++
    (if cpp_needs_duration g then [(Overload (s_ "duration_to_string") [], None)] else []).
  Definition third_part : list (entity * option function) :=
    map (fun x => (from_entity (fst (fst x)) (snd (fst x)), Some (cpp_parse_composite cpp g (snd (fst x)) (snd x)))) (cpp_composites g) ++
    map (fun x => (serialize_entity (fst (fst x)), Some (cpp_serializer cpp (fst (fst x)) (snd x)))) (cpp_composites g) ++
    [(serialize_entity (g_name g), Some (cpp_serialize_graph cpp g))].
  Lemma cpp_items_parts : cpp_items cpp g = first_part ++ (from_entity (g_name g) [], Some (cpp_parse_graph cpp g)) :: second_part ++ third_part.
  Proof. unfold cpp_items, first_part, second_part, third_part. fold id_spaces. now rewrite <- !app_assoc. Qed.

  Definition own_functions : list str :=
    map s_ ["message"; "duration_from_string"; "value_type_to_string"; "tm_to_string"; "duration_to_string"]%string.
  Definition known_entity (e : entity) : Prop :=
    (exists x, In x own_functions /\ e = Overload x []) \/ e = Within (s_ "re") (s_ "kDuration") \/
    (exists c, In c (g_classes g) /\ c_id_pattern c <> None /\ e = Within (cpp_id_space c) (s_ "kID")) \/
    (exists n refs, In n (structure_names g) /\ e = from_entity n refs) \/
    (exists n, In n (structure_names g) /\ e = serialize_entity n).
  Lemma items_known e : In e (map fst (cpp_items cpp g)) -> known_entity e.
  Proof.
    rewrite cpp_items_parts. unfold first_part, second_part, third_part. rewrite id_spaces_map, !map_app. cbn [map]. rewrite !map_app, !map_map. cbn [fst map].
    intros H. rewrite !in_app_iff in H.
    assert (Hif : forall (b : bool) (x : entity * option function) y, In y (map fst (if b then [x] else [])) -> y = fst x) by (intros [] x y; cbn; [intros [<-|[]]; reflexivity|tauto]).
    assert (Hown : forall x, mem (s_ x) own_functions = true -> e = Overload (s_ x) [] -> known_entity e) by (intros x Hx ->; left; exists (s_ x); split; [now apply mem_In|reflexivity]).
    repeat destruct H as [H|H]; try (apply Hif in H); try contradiction.
    - now apply (Hown "message"%string).
    - right. now left.
    - apply in_map_iff in H as (c & <- & H). apply filter_In in H as [Hc H]. right. right. left. exists c. split; [exact Hc|]. split; [|reflexivity].
      unfold with_id in H. destruct (c_id_pattern c); congruence.
    - now apply (Hown "duration_from_string"%string).
    - now apply (Hown "value_type_to_string"%string).
    - do 3 right. left. exists (g_name g), []. split; [now left|now symmetry].
    - rewrite !in_app_iff in H. destruct H as [[H|H]|[H|[H|H]]]; try (apply Hif in H).
      + now apply (Hown "tm_to_string"%string).
      + now apply (Hown "duration_to_string"%string).
      + apply in_map_iff in H as (x & <- & Hx). do 3 right. left. exists (fst (fst x)), (snd (fst x)). split; [now apply composite_name|reflexivity].
      + apply in_map_iff in H as (x & <- & Hx). do 4 right. exists (fst (fst x)). split; [now apply composite_name|reflexivity].
      + destruct H as [<-|[]]. do 4 right. exists (g_name g). split; [now left|reflexivity].
  Qed.

  Lemma lower_small n x : In n (structure_names g) -> small_name (lower n ++ x).
  Proof. intros Hn. apply Hname in Hn. destruct (lower_letter _ x Hn) as (a & r & E & Ha). now exists a, r. Qed.
  Lemma known_small e : known_entity e -> small_name (entity_name e).
  Proof.
    intros [(x & Hx & ->)|[->|[(c & Hc & _ & ->)|[(n & refs & Hn & ->)|(n & Hn & ->)]]]]; cbn [entity_name from_entity serialize_entity].
    - cbn in Hx. repeat (destruct Hx as [<-|Hx]; [eexists _, _; split; reflexivity|]). destruct Hx.
    - eexists _, _; split; reflexivity.
    - apply lower_small. now apply class_structure.
    - now apply lower_small.
    - eexists _, _; split; reflexivity.
  Qed.
  Lemma known_fresh e : known_entity e -> ~ In (entity_name e) (cpp_keywords ++ cpp_library ++ cpp_qualifiers ++ cpp_types g).
  Proof.
    intros He H. assert (Hs := known_small e He). rewrite !app_assoc in H. apply in_app_or in H as [H|H].
    - destruct He as [(x & Hx & ->)|[->|[(c & Hc & _ & ->)|[(n & refs & Hn & ->)|(n & Hn & ->)]]]]; cbn [entity_name from_entity serialize_entity] in H.
      + apply mem_In in H. cbn in Hx. repeat (destruct Hx as [<-|Hx]; [vm_compute in H; discriminate|]). destruct Hx.
      + apply mem_In in H. vm_compute in H. discriminate.
      + assert (K : forallb (fun y => negb (ends (s_ "_re") y)) ((cpp_keywords ++ cpp_library) ++ cpp_qualifiers) = true) by (vm_compute; reflexivity).
        rewrite forallb_forall in K. apply K in H. unfold cpp_id_space in H. now rewrite ends_app in H.
      + assert (K : forallb (fun y => negb (ends (s_ "_from") y)) ((cpp_keywords ++ cpp_library) ++ cpp_qualifiers) = true) by (vm_compute; reflexivity).
        rewrite forallb_forall in K. apply K in H. unfold cpp_from in H. now rewrite ends_app in H.
      + assert (K : forallb (fun y => negb (begins (s_ "serialize_") y)) ((cpp_keywords ++ cpp_library) ++ cpp_qualifiers) = true) by (vm_compute; reflexivity).
        rewrite forallb_forall in K. apply K in H. unfold cpp_serializer_name in H. now rewrite begins_app in H.
    - unfold cpp_types in H. apply in_map_iff in H as (n & E & Hn). apply capital_type in Hn. rewrite E in Hn. now apply small_not_capital in Hs.
  Qed.
  Lemma spaces_apart space x f ts : known_entity (Within space x) -> known_entity (Overload f ts) -> space <> f.
  Proof.
    destruct Hapart as (_ & _ & _ & _ & _ & _ & Hre & _).
    intros H1 H2 <-. assert (E : space = s_ "re" \/ exists c, In c (g_classes g) /\ c_id_pattern c <> None /\ space = cpp_id_space c).
    { destruct H1 as [(y & _ & E)|[E|[(c & Hc & Hp & E)|[(n & refs & _ & E)|(n & _ & E)]]]]; try discriminate; injection E as -> _; [now left|right; now exists c]. }
    assert (Hends : ends (s_ "re") space = true).
    { destruct E as [->|(c & _ & _ & ->)]; [reflexivity|]. unfold cpp_id_space. change (s_ "_re") with (s_ "_" ++ s_ "re"). rewrite app_assoc. apply ends_app. }
    destruct H2 as [(y & Hy & E2)|[E2|[(c & _ & _ & E2)|[(n & refs & Hn & E2)|(n & Hn & E2)]]]]; try discriminate; injection E2 as E2 _.
    - subst space. cbn in Hy. repeat (destruct Hy as [<-|Hy]; [vm_compute in Hends; discriminate|]). destruct Hy.
    - rewrite E2 in Hends. unfold cpp_from in Hends. rewrite ends_last in Hends; discriminate.
    - destruct E as [->|(c & Hc & Hp & ->)]; [discriminate|]. exact (Hre c n Hc Hp Hn E2).
  Qed.

  (** ** Nothing is defined twice *)
  Lemma NoDup_map_via {A B C} (f : A -> B) (h : A -> C) (l : list A) : NoDup (map h l) -> (forall x y, f x = f y -> h x = h y) -> NoDup (map f l).
  Proof.
    intros H E. induction l as [|x l IH]; cbn [map] in *; [constructor|]. inversion H as [|? ? H1 H2]; subst. constructor; [|now apply IH].
    intros Hin. apply in_map_iff in Hin as (y & Ey & Hy). apply H1. apply in_map_iff. exists y. split; [now apply E|exact Hy].
  Qed.
  Lemma NoDup_groups {A} (kind : A -> str) (groups : list (str * list A)) :
    NoDup (map fst groups) -> (forall k l, In (k, l) groups -> NoDup l /\ forall x, In x l -> kind x = k) -> NoDup (concat (map snd groups)).
  Proof.
    induction groups as [|[k l] groups IH]; cbn [map concat fst snd]; intros H HG; [constructor|]. inversion H as [|? ? H1 H2]; subst.
    destruct (HG k l (or_introl eq_refl)) as [Hl Hk]. apply NoDup_app_intro; [exact Hl|apply IH; [exact H2|intros k' l' H'; apply HG; now right]|].
    intros x Hx Hx'. apply in_concat in Hx' as (l' & Hl' & Hx'). apply in_map_iff in Hl' as ([k' l2] & E & Hg). cbn in E. subst l2.
    destruct (HG k' l' (or_intror Hg)) as [_ Hk']. apply H1. apply in_map_iff. exists (k', l'). split; [|exact Hg]. cbn. now rewrite <- (Hk' x Hx'), <- (Hk x Hx).
  Qed.
  Definition kind_of (e : entity) : str :=
    match e with
    | Within _ x => x
    | Overload x [] => x
    | Overload _ [_] => s_ "serialize"
    | Overload _ ts => if mem (ucamel (g_name g) ++ s_ "*") ts then s_ "graph" else s_ "parse"
    end.
  Lemma from_types n refs : exists a b l, from_entity n refs = Overload (cpp_from n) (a :: b :: l).
  Proof. unfold from_entity. destruct refs; cbn [map app]; eauto. Qed.
  Lemma from_same n refs m refs' : from_entity n refs = from_entity m refs' -> ucamel n = ucamel m.
  Proof.
    unfold from_entity. intros E. injection E as _ E. apply (f_equal (@rev _)) in E. rewrite !rev_app_distr in E. cbn [rev app] in E. injection E as E _.
    now apply app_inv_tail in E.
  Qed.
  Lemma kind_from n refs : In n (structure_names g) -> kind_of (from_entity n refs) = if str_eqb (ucamel n) (ucamel (g_name g)) then s_ "graph" else s_ "parse".
  Proof.
    intros Hn. transitivity (match from_entity n refs with Overload _ ts => if mem (ucamel (g_name g) ++ s_ "*") ts then s_ "graph" else s_ "parse" | Within _ _ => [] end).
    { destruct (from_types n refs) as (a & b & l & ->). reflexivity. }
    unfold from_entity.
    assert (Hg : capital_name (ucamel (g_name g) ++ s_ "*")) by (apply capital_app, capital_type; now left).
    destruct (str_eqb (ucamel n) (ucamel (g_name g))) eqn:Ee.
    - apply str_eqb_eq in Ee. replace (mem _ _) with true; [reflexivity|]. symmetry. apply mem_In. rewrite !in_app_iff. right. right. right. left. now rewrite Ee.
    - destruct (mem _ _) eqn:Em; [|reflexivity]. exfalso. apply mem_In in Em. rewrite !in_app_iff in Em.
      assert (Hsmall : forall x, small_name x -> ucamel (g_name g) ++ s_ "*" <> x) by (intros x Hx E; rewrite E in Hg; now apply small_not_capital in Hx).
      destruct Em as [[Em|[]]|[Em|[Em|[Em|[Em|[]]]]]].
      + symmetry in Em. revert Em. apply Hsmall. eexists _, _; split; reflexivity.
      + apply in_map_iff in Em as (c & Em & _). symmetry in Em. revert Em. apply Hsmall. eexists _, _; split; reflexivity.
      + symmetry in Em. revert Em. apply Hsmall. eexists _, _; split; reflexivity.
      + apply app_inv_tail in Em. rewrite Em, str_eqb_refl in Ee. discriminate.
      + symmetry in Em. revert Em. apply Hsmall. eexists _, _; split; reflexivity.
  Qed.
  Lemma NoDup_composites : NoDup (map (fun x => ucamel (fst (fst x))) (cpp_composites g)) /\
    ~ In (ucamel (g_name g)) (map (fun x => ucamel (fst (fst x))) (cpp_composites g)).
  Proof.
    rewrite <- (map_map (fun x => fst (fst x)) ucamel), composite_names_spec. unfold structure_names in Htypes. cbn [map] in Htypes. now inversion Htypes.
  Qed.
  Lemma items_NoDup : NoDup (map fst (cpp_items cpp g)).
  Proof.
    destruct NoDup_composites as [NC NG].
    set (groups :=
      [(s_ "message", [Overload (s_ "message") []]);
       (s_ "kDuration", map fst (if cpp_needs_duration g then [(Within (s_ "re") (s_ "kDuration"), @None function)] else []));
       (s_ "kID", map fst id_spaces);
       (s_ "duration_from_string", map fst (if cpp_needs_duration g then [(Overload (s_ "duration_from_string") [], @None function)] else []));
       (s_ "value_type_to_string", [Overload (s_ "value_type_to_string") []]);
       (s_ "graph", [from_entity (g_name g) []]);
       (s_ "tm_to_string", map fst (if cpp_ctime cpp && cpp_needs_date g then [(Overload (s_ "tm_to_string") [], @None function)] else []));
       (s_ "duration_to_string", map fst (if cpp_needs_duration g then [(Overload (s_ "duration_to_string") [], @None function)] else []));
       (s_ "parse", map (fun x => from_entity (fst (fst x)) (snd (fst x))) (cpp_composites g));
       (s_ "serialize", map serialize_entity (map (fun x => fst (fst x)) (cpp_composites g) ++ [g_name g]))]).
    replace (map fst (cpp_items cpp g)) with (concat (map snd groups)).
    2:{ rewrite cpp_items_parts. unfold first_part, second_part, third_part, groups. cbn [map concat fst snd app]. rewrite !map_app, !map_map. cbn [map fst app]. rewrite <- !app_assoc. cbn [app].
        rewrite !map_app, !map_map. cbn [map fst]. reflexivity. }
    assert (Hif : forall (b : bool) (e : entity), NoDup (map fst (if b then [(e, @None function)] else [])) /\ forall x, In x (map fst (if b then [(e, @None function)] else [])) -> kind_of x = kind_of e).
    { intros [] e; cbn [map fst]; (split; [repeat constructor; auto|]); [intros x [<-|[]]; reflexivity|intros x []]. }
    apply (NoDup_groups kind_of); [unfold groups; cbn [map fst]; repeat constructor; vm_compute; intuition discriminate|].
    intros k l H. unfold groups in H. cbn [In] in H. repeat match type of H with _ \/ _ => destruct H as [H|H] end; try contradiction; injection H as <- <-; try (apply (Hif _ (Overload _ []))); try (apply (Hif _ (Within _ _))).
    - split; [repeat constructor; auto|]. intros x [<-|[]]; reflexivity.
    - rewrite id_spaces_map, map_map. cbn [fst]. split.
      + apply (NoDup_map_via _ (fun c => lower (c_name c))).
        * destruct Hapart as (_ & _ & _ & _ & _ & Hids & _). rewrite <- (map_map c_name lower). exact Hids.
        * intros c d E. injection E as E. now apply app_inv_tail in E.
      + intros x Hx. apply in_map_iff in Hx as (c & <- & _). reflexivity.
    - split; [repeat constructor; auto|]. intros x [<-|[]]; reflexivity.
    - split; [repeat constructor; auto|]. intros x [<-|[]]. rewrite kind_from by (now left). now rewrite str_eqb_refl.
    - split.
      + apply (NoDup_map_via _ (fun x => ucamel (fst (fst x)))); [exact NC|]. intros x y E. now apply from_same in E.
      + intros x Hx. apply in_map_iff in Hx as (y & <- & Hy). rewrite kind_from by (now apply composite_name).
        destruct (str_eqb _ _) eqn:E; [|reflexivity]. exfalso. apply NG. apply str_eqb_eq in E. rewrite <- E. now apply (in_map (fun x => ucamel (fst (fst x)))).
    - split.
      + apply (NoDup_map_via _ ucamel).
        * rewrite map_app, map_map. cbn [map]. apply NoDup_app_intro; [exact NC|repeat constructor; auto|]. intros x Hx [<-|[]]. contradiction.
        * intros n m E. unfold serialize_entity in E. injection E as _ E. now apply app_inv_tail in E.
      + intros x Hx. apply in_map_iff in Hx as (n & <- & _). reflexivity.
  Qed.
  Lemma header_defined e : In e (cpp_header g) -> In e (map fst (cpp_items cpp g)).
  Proof.
    rewrite cpp_items_parts, map_app. cbn [map fst]. unfold third_part. rewrite !map_app, !map_map. cbn [map fst]. unfold cpp_header.
    rewrite in_app_iff. cbn [In]. rewrite !in_app_iff. cbn [In]. tauto.
  Qed.

  (** ** The functions *)
  Lemma types_fresh x : In x (cpp_types g) -> ~ In x (cpp_keywords ++ cpp_library ++ cpp_qualifiers).
  Proof.
    intros H Hin. unfold cpp_types in H. apply in_map_iff in H as (n & <- & Hn).
    assert (K : forallb (fun y => match y with a :: _ => negb (is_upper a) || str_eqb y (s_ "Json") | [] => false end) (cpp_keywords ++ cpp_library ++ cpp_qualifiers) = true) by (vm_compute; reflexivity).
    rewrite forallb_forall in K. apply K in Hin. assert (Hc := capital_type n Hn). destruct (Hcname n Hn) as (i & Hi).
    destruct (ucamel n) as [|a r] eqn:Eu; [discriminate|]. destruct Hc as (b & q & Eb & Hb). injection Eb as <- <-. rewrite Hb in Hin. cbn [negb orb] in Hin. apply str_eqb_eq in Hin.
    destruct Hapart as (_ & HJ & _). apply (HJ n Hn). rewrite <- Hin, <- Eu, (ucamel_right _ _ Hi). exact Hi.
  Qed.

  Section Bodies.
    Variable names : list str.
    Definition source_globals : list str := cpp_library ++ cpp_types g ++ names.
    Hypothesis Hheader : incl (map entity_name (cpp_header g)) names.
    Hypothesis Hfirst : incl (map entity_name (map fst first_part)) names.
    Notation globals := source_globals.
    Lemma S_lib : incl cpp_library globals.
    Proof. intros x Hx. apply in_or_app. now left. Qed.
    Lemma S_types n : In n (structure_names g) -> In (ucamel n) globals.
    Proof. intros H. apply in_or_app. right. apply in_or_app. left. now apply in_map. Qed.
    Lemma S_name x : In x names -> In x globals.
    Proof. intros H. apply in_or_app. right. apply in_or_app. now right. Qed.
    Lemma S_from n : In n (structure_names g) -> In (cpp_from n) globals.
    Proof.
      intros H. apply S_name, Hheader. apply in_map_iff. apply structure_composite in H as [->|(x & Hx & <-)].
      - exists (from_entity (g_name g) []). split; [reflexivity|now left].
      - exists (from_entity (fst (fst x)) (snd (fst x))). split; [reflexivity|]. right. apply in_or_app. left. now apply (in_map (fun x => from_entity (fst (fst x)) (snd (fst x)))).
    Qed.
    Lemma S_serializer n : In n (structure_names g) -> In (cpp_serializer_name n) globals.
    Proof.
      intros H. apply S_name, Hheader. apply in_map_iff. apply structure_composite in H as [->|(x & Hx & <-)].
      - exists (serialize_entity (g_name g)). split; [reflexivity|]. right. apply in_or_app. right. now left.
      - exists (serialize_entity (fst (fst x))). split; [reflexivity|]. right. apply in_or_app. right. right. now apply (in_map (fun x => serialize_entity (fst (fst x)))).
    Qed.
    Lemma S_first x : In x (map entity_name (map fst first_part)) -> In x globals.
    Proof. intros H. now apply S_name, Hfirst. Qed.
    Lemma S_message : In (s_ "message") globals.
    Proof. apply S_first. now left. Qed.
    Lemma S_value_type : In (s_ "value_type_to_string") globals.
    Proof. apply S_first. unfold first_part. rewrite !map_app, !in_app_iff. do 4 right. now left. Qed.
    Lemma S_duration : cpp_needs_duration g = true -> In (s_ "duration_from_string") globals.
    Proof. intros H. apply S_first. unfold first_part. rewrite H, !map_app, !in_app_iff. do 3 right. left. now left. Qed.
    Lemma S_spaces c : In c (g_classes g) -> c_id_pattern c <> None -> In (cpp_id_space c) globals.
    Proof.
      intros Hc Hp. apply S_first. unfold first_part. rewrite id_spaces_map, !map_app, !in_app_iff. do 2 right. left. rewrite !map_map. cbn [fst entity_name].
      apply (in_map cpp_id_space). apply filter_In. split; [exact Hc|]. unfold with_id. destruct (c_id_pattern c); congruence.
    Qed.

    Lemma graph_parser_right : block_right cpp_keywords globals (cpp_parse_graph cpp g).
    Proof.
      apply cpp_parse_graph_right; try assumption.
      - exact S_lib.
      - exact S_types.
      - exact S_from.
      - exact S_message.
      - exact S_value_type.
      - exact S_duration.
      - exact S_spaces.
      - destruct Hapart as (_ & _ & _ & _ & Hc & _). intros c H. now apply Hc.
    Qed.
    Lemma composite_parser_right x : In x (cpp_composites g) -> block_right cpp_keywords globals (cpp_parse_composite cpp g (snd (fst x)) (snd x)).
    Proof.
      intros Hx. destruct (composite_parts x Hx) as (k & r & Hk & Hroot & -> & Hc).
      apply (cpp_parse_composite_right cpp g) with (r := r); try assumption.
      - exact S_lib.
      - exact S_types.
      - exact S_from.
      - exact S_message.
      - exact S_value_type.
      - exact S_duration.
    Qed.
    Hypothesis Hsecond : incl (map entity_name (map fst second_part)) names.
    Lemma S_tm : cpp_ctime cpp = true -> cpp_needs_date g = true -> In (s_ "tm_to_string") globals.
    Proof. intros H1 H2. apply S_name, Hsecond. unfold second_part. rewrite H1, H2. now left. Qed.
    Lemma S_to_duration : cpp_needs_duration g = true -> In (s_ "duration_to_string") globals.
    Proof. intros H. apply S_name, Hsecond. unfold second_part. rewrite H, !map_app, !in_app_iff. right. now left. Qed.
    Lemma structure_apart n : In n (structure_names g) ->
      ~ In (lower n) cpp_keywords /\ ~ In (lower n) (map s_ ["tm_to_string"; "duration_to_string"]%string) /\
      (forall stem k, In stem to_stems -> lower n <> stem ++ dec_nat k) /\
      forall m, In m (structure_names g) -> lower n <> cpp_serializer_name m /\ lower n ++ s_ "_as_value" <> cpp_serializer_name m.
    Proof.
      intros Hn. destruct Hapart as (_ & _ & HA & _). destruct (HA n Hn) as (H1 & H2 & H3). split; [|split; [|split; [exact H2|exact H3]]]; intros H; apply H1, in_or_app; [now left|now right].
    Qed.
    Lemma serializer_right x : In x (cpp_composites g) -> block_right cpp_keywords globals (cpp_serializer cpp (fst (fst x)) (snd x)).
    Proof.
      intros Hx. destruct (composite_parts x Hx) as (k & r & Hk & Hroot & _ & Hc). destruct (structure_apart _ (composite_name x Hx)) as (A1 & A2 & A3 & A4).
      apply (cpp_serializer_right cpp g) with (r := r); try assumption.
      - exact S_serializer.
      - exact S_tm.
      - exact S_to_duration.
    Qed.
    Lemma graph_serializer_right : block_right cpp_keywords globals (cpp_serialize_graph cpp g).
    Proof.
      destruct (structure_apart (g_name g) (or_introl eq_refl)) as (A1 & A2 & A3 & A4). destruct Hapart as (_ & _ & _ & HL & Hc & _).
      apply cpp_serialize_graph_right; try assumption.
      - exact S_lib.
      - exact S_types.
      - exact S_serializer.
      - exact S_tm.
      - exact S_to_duration.
      - intros c H. destruct (Hc c H) as (_ & H1 & H2 & H3). auto.
    Qed.
  End Bodies.

  Lemma parts_none x : In x first_part \/ In x second_part -> snd x = None.
  Proof.
    unfold first_part, second_part. rewrite id_spaces_map, !in_app_iff.
    assert (Hif : forall (b : bool) (e : entity), In x (if b then [(e, @None function)] else []) -> snd x = None) by (intros [] e; cbn; [intros [<-|[]]; reflexivity|tauto]).
    intros H. repeat destruct H as [H|H]; try (apply Hif in H; exact H); try (subst x; reflexivity); try destruct H.
    apply in_map_iff in H as (c & <- & _). reflexivity.
  Qed.

  Lemma functions_right before e f after : cpp_items cpp g = before ++ (e, Some f) :: after ->
    block_right cpp_keywords (cpp_library ++ cpp_types g ++ map entity_name (cpp_header g ++ map fst before ++ [e])) f.
  Proof.
    rewrite cpp_items_parts. intros E. apply after_declarations in E as (rest & -> & E); [|intros x Hx; apply parts_none; now left].
    set (names := map entity_name _). change (cpp_library ++ cpp_types g ++ names) with (source_globals names).
    assert (H1 : incl (map entity_name (cpp_header g)) names) by (intros x Hx; unfold names; rewrite map_app; apply in_or_app; now left).
    assert (H2 : incl (map entity_name (map fst first_part)) names) by (intros x Hx; unfold names; rewrite !map_app, !in_app_iff; tauto).
    destruct rest as [|y rest]; cbn [app] in E.
    - injection E as _ <- _. now apply graph_parser_right.
    - injection E as <- E. apply after_declarations in E as (rest' & -> & E); [|intros x Hx; apply parts_none; now right].
      assert (H3 : incl (map entity_name (map fst second_part)) names).
      { intros x Hx. unfold names. rewrite !map_app. cbn [map]. rewrite !map_app, !in_app_iff. cbn [In]. rewrite !in_app_iff. tauto. }
      assert (Hin : In (e, Some f) third_part) by (rewrite E; apply in_or_app; right; now left).
      unfold third_part in Hin. rewrite !in_app_iff in Hin. destruct Hin as [Hin|[Hin|[Hin|[]]]].
      + apply in_map_iff in Hin as (x & Ex & Hx). injection Ex as _ <-. now apply composite_parser_right.
      + apply in_map_iff in Hin as (x & Ex & Hx). injection Ex as _ <-. now apply serializer_right.
      + injection Hin as _ <-. now apply graph_serializer_right.
  Qed.

  Lemma cpp_source_is_right : cpp_source_right spaces (cpp_types g) (cpp_header g) (cpp_items cpp g).
  Proof.
    split; [exact Htypes|]. split; [exact types_fresh|]. split; [now destruct Hapart as (_ & _ & _ & _ & _ & _ & _ & H)|].
    split; [exact items_NoDup|]. split; [exact header_defined|]. split; [intros e He; now apply known_fresh, items_known|].
    split; [intros space x f ts H1 H2; apply (spaces_apart space x f ts); now apply items_known|exact functions_right].
  Qed.
End Source.
