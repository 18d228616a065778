(** Proofs about the names in the generated C++ functions, continued: the functions and the
    source. *)
From Coq Require Import String List Arith NArith ZArith Bool Lia.
From Verif Require Import Base M_Naming M_Schema M_Dec M_Text M_TypeGraph M_Walk M_GoImports M_GoGen S_Scope M_Scope M_GoScope M_CppScope
  S_TypeGraph S_Conform S_Walk S_GoImports S_LangValid P_Common P_AutoID P_TypeGraph P_Walk P_GoImports P_References P_Naming P_LangValid
  P_Scope P_PyScope P_BlockScope P_GoFunctions P_CppScope P_CppSerialize.
Import ListNotations.
Open Scope list_scope.
Local Open Scope nat_scope.

(** * The functions *)

Definition frame_locals : list str := map s_ ["value"; "ref"; "target"; "errors"; "instance_ref"]%string.
Definition inner_locals : list str := map s_ ["obj"; "it"; "instance"; "expected_but_got"]%string.
Definition cpp_roles : list string := ["_registry"; "_ref"]%string.
Definition cpp_own_functions : list str :=
  map s_ ["message"; "value_type_to_string"; "duration_from_string"]%string.

(** What the parsers know from outside *)
Definition cpp_far (x : str) : Prop :=
  capital_name x \/ ends (s_ "_from") x = true \/ ends (s_ "_re") x = true \/ In x (cpp_library ++ cpp_own_functions).

Lemma cpp_role_last r x : In r cpp_roles -> last_char (x ++ s_ r) = last_char (s_ r).
Proof. intros H. apply last_char_app. cbn in H. repeat (destruct H as [<-|H]; [discriminate|]). destruct H. Qed.
Lemma cpp_role_eq r r' x x' : In r cpp_roles -> In r' cpp_roles -> x ++ s_ r = x' ++ s_ r' -> r = r' /\ x = x'.
Proof.
  intros H H' E. assert (EL := f_equal last_char E). rewrite !cpp_role_last in EL by assumption.
  assert (r = r') as <-; [|split; [reflexivity|exact (app_inv_tail _ _ _ E)]].
  cbn in H, H'. repeat (destruct H as [<-|H]; [repeat (destruct H' as [<-|H']; [first [reflexivity | discriminate EL]|]); destruct H'|]). destruct H.
Qed.
Lemma ends_last_char p x : p <> [] -> ends p x = true -> last_char x = last_char p.
Proof.
  intros Hp E. unfold ends in E. rewrite <- (rev_involutive x), <- (rev_involutive p). destruct (rev p) as [|a p'] eqn:Ep.
  - apply (f_equal (@rev _)) in Ep. rewrite rev_involutive in Ep. cbn in Ep. congruence.
  - destruct (rev x) as [|b x']; cbn [begins] in E; [discriminate|]. cbn [rev]. rewrite !last_char_app by discriminate. cbn.
    destruct (N.eqb_spec a b); [now symmetry|discriminate].
Qed.
Lemma taken_small n x : taken n x -> small_name x.
Proof.
  intros [(H & k & _ & E)|[H|(k & _ & ->)]].
  - rewrite E. apply small_app. assert (K : forallb (fun y => match y with a :: _ => is_lower a | [] => false end) cpp_stems = true) by (vm_compute; reflexivity).
    rewrite forallb_forall in K. apply K in H. destruct (stem_of x) as [|a r]; [discriminate|]. now exists a, r.
  - assert (K : forallb (fun y => match y with a :: _ => is_lower a | [] => false end) cpp_fixed = true) by (vm_compute; reflexivity).
    rewrite forallb_forall in K. apply K in H. destruct x as [|a r]; [discriminate|]. now exists a, r.
  - eexists _, _. split; reflexivity.
Qed.
Lemma ends_last p q x : last_char p <> last_char q -> p <> [] -> q <> [] -> ends p (x ++ q) = false.
Proof.
  intros H Hp Hq. destruct (ends p (x ++ q)) eqn:E; [|reflexivity]. exfalso. apply H. apply ends_last_char in E; [|exact Hp].
  now rewrite last_char_app in E.
Qed.

Section Functions.
  Variable cpp : cpp_conf.
  Variable g : graph.
  Hypothesis HR : resolved g.
  Hypothesis HN : NoDup (map c_name (g_classes g)).
  Hypothesis Hplural : forall c, In c (g_classes g) -> capital_name (c_plural c).
  Hypothesis Hname : forall n, In n (structure_names g) -> capital_name n.
  Hypothesis Hcname : forall n, In n (structure_names g) -> exists i, upper_camel n i.
  Hypothesis HNplural : NoDup (map lower (map c_plural (g_classes g))).

  (** What is known outside of the functions *)
  Variable globals : list str.
  Hypothesis Glib : incl cpp_library globals.
  Hypothesis Gtypes : forall n, In n (structure_names g) -> In (ucamel n) globals.
  Hypothesis Gfrom : forall n, In n (structure_names g) -> In (cpp_from n) globals.
  Hypothesis Gmessage : In (s_ "message") globals.
  Hypothesis Gvalue_type : In (s_ "value_type_to_string") globals.
  Hypothesis Gduration : cpp_needs_duration g = true -> In (s_ "duration_from_string") globals.

  Notation meaning := (meaning globals).
  Notation scoped := (scoped cpp_keywords globals).
  Notation right := (P_BlockScope.right globals).
  Notation csafe := (safe globals).

  Lemma small_plural c x : In c (g_classes g) -> small_name (lower (c_plural c) ++ x).
  Proof. intros Hc. apply Hplural in Hc. destruct (lower_letter _ x Hc) as (a & r & E & Ha). now exists a, r. Qed.
  Lemma small_structure n x : In n (structure_names g) -> small_name (lower n ++ x).
  Proof. intros Hn. apply Hname in Hn. destruct (lower_letter _ x Hn) as (a & r & E & Ha). now exists a, r. Qed.

  Definition frame_name (x : str) : Prop :=
    In x frame_locals \/ exists c r, In c (g_classes g) /\ In r cpp_roles /\ x = lower (c_plural c) ++ s_ r.
  Definition frame_ok (D : list (thing * str)) : Prop := NoDup (map snd D) /\ forall y, In y (map snd D) -> frame_name y.
  Lemma frame_ok_prefix D D' : frame_ok (D ++ D') -> frame_ok D.
  Proof.
    intros [H1 H2]. rewrite map_app in *. split; [now apply NoDup_app_parts in H1|]. intros y Hy. apply H2. apply in_or_app. now left.
  Qed.

  Lemma frame_name_taken x n : frame_name x -> ~ taken n x.
  Proof.
    intros [H|(c & r & Hc & Hr & ->)].
    - assert (K : forallb (fun y => negb (is_digit (last_char y)) && negb (mem y cpp_fixed) && negb (ends (s_ "_str") y)) frame_locals = true) by (vm_compute; reflexivity).
      rewrite forallb_forall in K. apply K in H. rewrite !andb_true_iff, !negb_true_iff in H. now apply not_taken.
    - apply not_taken.
      + rewrite cpp_role_last by exact Hr. cbn in Hr. repeat (destruct Hr as [<-|Hr]; [reflexivity|]). destruct Hr.
      + destruct (mem _ cpp_fixed) eqn:E; [|reflexivity]. exfalso. apply mem_In in E.
        assert (K : forallb (fun y => negb (existsb (fun r => ends (s_ r) y) cpp_roles)) cpp_fixed = true) by (vm_compute; reflexivity).
        rewrite forallb_forall in K. apply K in E. apply negb_true_iff in E.
        assert (E' : existsb (fun q => ends (s_ q) (lower (c_plural c) ++ s_ r)) cpp_roles = true) by (apply existsb_exists; exists r; split; [exact Hr|apply ends_app]). congruence.
      + cbn in Hr. repeat (destruct Hr as [<-|Hr]; [apply ends_last; discriminate|]). destruct Hr.
  Qed.

  Lemma frame_name_far x : frame_name x -> ~ cpp_far x.
  Proof.
    intros [H|(c & r & Hc & Hr & ->)].
    - assert (K : forallb (fun y => negb (match y with a :: _ => is_upper a | [] => true end) && negb (ends (s_ "_from") y) && negb (ends (s_ "_re") y) &&
                                    negb (mem y (cpp_library ++ cpp_own_functions))) frame_locals = true) by (vm_compute; reflexivity).
      rewrite forallb_forall in K. apply K in H. rewrite !andb_true_iff, !negb_true_iff in H. destruct H as [[[H1 H2] H3] H4].
      intros [(a & r & -> & Ha)|[F|[F|F]]]; [congruence..|]. apply mem_In in F. congruence.
    - intros [F|[F|[F|F]]].
      + revert F. apply small_not_capital. now apply small_plural.
      + cbn in Hr. repeat (destruct Hr as [<-|Hr]; [rewrite ends_last in F; discriminate|]). destruct Hr.
      + cbn in Hr. repeat (destruct Hr as [<-|Hr]; [rewrite ends_last in F; discriminate|]). destruct Hr.
      + assert (K : forallb (fun y => negb (existsb (fun r => ends (s_ r) y) cpp_roles)) (cpp_library ++ cpp_own_functions) = true) by (vm_compute; reflexivity).
        rewrite forallb_forall in K. apply K in F. apply negb_true_iff in F.
        assert (E : existsb (fun q => ends (s_ q) (lower (c_plural c) ++ s_ r)) cpp_roles = true) by (apply existsb_exists; exists r; split; [exact Hr|apply ends_app]). congruence.
  Qed.
  Lemma inner_far x : In x inner_locals -> ~ cpp_far x.
  Proof.
    intros H.
    assert (K : forallb (fun y => negb (match y with a :: _ => is_upper a | [] => true end) && negb (ends (s_ "_from") y) && negb (ends (s_ "_re") y) &&
                                    negb (mem y (cpp_library ++ cpp_own_functions))) inner_locals = true) by (vm_compute; reflexivity).
    rewrite forallb_forall in K. apply K in H. rewrite !andb_true_iff, !negb_true_iff in H. destruct H as [[[H1 H2] H3] H4].
    intros [(a & r & -> & Ha)|[F|[F|F]]]; [congruence..|]. apply mem_In in F. congruence.
  Qed.
  Lemma far_taken x n : cpp_far x -> ~ taken n x.
  Proof.
    intros [F|[F|[F|F]]].
    - intros H. apply taken_small in H. now apply small_not_capital in H.
    - apply not_taken.
      + now rewrite (ends_last_char (s_ "_from")).
      + destruct (mem x cpp_fixed) eqn:E; [|reflexivity]. apply mem_In in E.
        assert (K : forallb (fun y => negb (ends (s_ "_from") y)) cpp_fixed = true) by (vm_compute; reflexivity).
        rewrite forallb_forall in K. apply K in E. now rewrite F in E.
      + destruct (ends (s_ "_str") x) eqn:E; [|reflexivity]. apply ends_last_char in E; [|discriminate]. apply ends_last_char in F; [|discriminate]. rewrite E in F. discriminate.
    - apply not_taken.
      + now rewrite (ends_last_char (s_ "_re")).
      + destruct (mem x cpp_fixed) eqn:E; [|reflexivity]. apply mem_In in E.
        assert (K : forallb (fun y => negb (ends (s_ "_re") y)) cpp_fixed = true) by (vm_compute; reflexivity).
        rewrite forallb_forall in K. apply K in E. now rewrite F in E.
      + destruct (ends (s_ "_str") x) eqn:E; [|reflexivity]. apply ends_last_char in E; [|discriminate]. apply ends_last_char in F; [|discriminate]. rewrite E in F. discriminate.
    - assert (K : forallb (fun y => negb (is_digit (last_char y)) && negb (mem y cpp_fixed) && negb (ends (s_ "_str") y)) (cpp_library ++ cpp_own_functions) = true) by (vm_compute; reflexivity).
      rewrite forallb_forall in K. apply K in F. rewrite !andb_true_iff, !negb_true_iff in F. now apply not_taken.
  Qed.
  Lemma frame_name_unreserved x : frame_name x -> ~ In x cpp_keywords.
  Proof.
    intros [H|(c & r & Hc & Hr & ->)] F.
    - assert (K : forallb (fun y => negb (mem y cpp_keywords)) frame_locals = true) by (vm_compute; reflexivity).
      rewrite forallb_forall in K. apply K in H. apply mem_In in F. now rewrite F in H.
    - assert (K : forallb (fun y => negb (existsb (fun r => ends (s_ r) y) cpp_roles)) cpp_keywords = true) by (vm_compute; reflexivity).
      rewrite forallb_forall in K. apply K in F. apply negb_true_iff in F.
      assert (E : existsb (fun q => ends (s_ q) (lower (c_plural c) ++ s_ r)) cpp_roles = true) by (apply existsb_exists; exists r; split; [exact Hr|apply ends_app]). congruence.
  Qed.

  (** ** Frames *)
  Definition known (D : list (thing * str)) (c : code) : Prop :=
    (exists x, c = outer x /\ In x globals /\ cpp_far x) \/ (exists t x, c = Mention t x /\ In (t, x) D).
  Lemma known_safe D n l : frame_ok D -> Forall (known D) l -> Forall (csafe n [frame_of D]) l.
  Proof.
    intros HD. apply Forall_impl. intros c [(x & -> & H & F)|(t & x & -> & H)].
    - apply safe_mention; [|now apply far_taken]. apply frame_outer; [|exact H]. intros Hin. apply (frame_name_far x); [now apply HD|exact F].
    - apply safe_mention; [now apply frame_meaning; [apply HD|]|]. apply frame_name_taken. apply HD. apply in_map_iff. now exists (t, x).
  Qed.
  Lemma known_right D l : frame_ok D -> Forall (known D) l -> Forall (right [frame_of D]) l.
  Proof. intros HD H. apply (safe_right globals 0). now apply known_safe. Qed.
  Lemma frame_vacant D n : frame_ok D -> vacant n [frame_of D].
  Proof. intros HD x Hx H. apply (proj1 (frame_in D x)) in H. apply (frame_name_taken x n); [now apply HD|exact Hx]. Qed.
  Lemma frame_declares D D0 l : frame_ok (D0 ++ D) -> scoped [frame_of (D0 ++ D)] l -> scoped [frame_of D0] (declares D ++ l).
  Proof.
    intros HD. apply scoped_declares; [apply HD|]. intros q Hq. apply frame_name_unreserved. apply HD.
    apply in_map. apply in_or_app. now right.
  Qed.
  Lemma frame_declare D t x l : frame_ok (D ++ [(t, x)]) -> scoped [frame_of (D ++ [(t, x)])] l -> scoped [frame_of D] (Declare t x :: l).
  Proof. intros HD Hl. exact (frame_declares [(t, x)] D l HD Hl). Qed.

  Lemma lplural_eq c d : In c (g_classes g) -> In d (g_classes g) -> lower (c_plural c) = lower (c_plural d) -> c = d.
  Proof.
    intros Hc Hd E. assert (H : NoDup (map (fun c => lower (c_plural c)) (g_classes g))) by (rewrite <- map_map; exact HNplural). revert H Hc Hd E.
    generalize (g_classes g). clear. intros l. induction l as [|a l IH]; [contradiction|]. cbn [map]. intros H Hc Hd E.
    inversion H as [|? ? H1 H2]; subst. destruct Hc as [<-|Hc], Hd as [<-|Hd]; [reflexivity| | |now apply IH]; exfalso; apply H1.
    - rewrite E. apply (in_map (fun c => lower (c_plural c))). exact Hd.
    - rewrite <- E. apply (in_map (fun c => lower (c_plural c))). exact Hc.
  Qed.
  Lemma role_NoDup r l : In r cpp_roles -> incl l (g_classes g) -> NoDup l -> NoDup (map (fun c => lower (c_plural c) ++ s_ r) l).
  Proof.
    intros Hr Hl HL. induction HL as [|c l Hc _ IH]; cbn [map]; constructor.
    - intros H. apply in_map_iff in H as (d & E & Hd). apply app_inv_tail in E. apply lplural_eq in E as ->; [contradiction|apply Hl; now right|apply Hl; now left].
    - apply IH. intros d Hd. apply Hl. now right.
  Qed.

  (** The functions' own variables before and after those for the classes *)
  Lemma frame_ok_intro (before after : list string) (V : cls -> thing * str) r l :
    NoDup (map s_ (before ++ after)) -> incl (map s_ (before ++ after)) frame_locals ->
    In r cpp_roles -> incl l (g_classes g) -> NoDup l ->
    (forall c, snd (V c) = lower (c_plural c) ++ s_ r) ->
    (forall x c, In x (map s_ (before ++ after)) -> In c l -> x <> lower (c_plural c) ++ s_ r) ->
    frame_ok (map (fun x => (Own x, s_ x)) before ++ map V l ++ map (fun x => (Own x, s_ x)) after).
  Proof.
    intros H1 H2 H3 H5 H6 H7 H8.
    assert (EF : map snd (map V l) = map (fun c => lower (c_plural c) ++ s_ r) l) by (rewrite map_map; apply map_ext, H7).
    assert (EO : forall xs : list string, map snd (map (fun x => (Own x, s_ x)) xs) = map s_ xs) by (intros xs; rewrite map_map; reflexivity).
    unfold frame_ok. rewrite !map_app, !EO, EF. rewrite map_app in H1, H2, H8.
    assert (Hdisj : forall x, In x (map s_ before ++ map s_ after) -> ~ In x (map (fun c => lower (c_plural c) ++ s_ r) l)).
    { intros x Hx Hx'. apply in_map_iff in Hx' as (c & E & Hc). now apply (H8 x c Hx Hc). }
    split.
    - destruct (NoDup_app_parts _ _ H1) as (N1 & N2 & N3). apply NoDup_app_intro; [exact N1| |].
      + apply NoDup_app_intro; [now apply role_NoDup|exact N2|]. intros x Hx Hx'. apply (Hdisj x); [apply in_or_app; now right|exact Hx].
      + intros x Hx Hx'. apply in_app_or in Hx' as [Hx'|Hx']; [apply (Hdisj x); [apply in_or_app; now left|exact Hx']|].
        exact (N3 x Hx Hx').
    - intros y Hy. rewrite !in_app_iff in Hy. destruct Hy as [Hy|[Hy|Hy]]; [left; apply H2; apply in_or_app; now left| |left; apply H2; apply in_or_app; now right].
      apply in_map_iff in Hy as (c & <- & Hc). right. exists c, r. auto.
  Qed.

  (** ** What the code for the types mentions *)
  Section Support.
    Variable registry : cls -> list code.
    Variable D : list (thing * str).
    Hypothesis Herrors : In (Own "errors", s_ "errors") D.
    Ltac lib := left; eexists; split; [reflexivity|split; [first [assumption | apply Glib, mem_In; reflexivity]|right; right; right; apply mem_In; reflexivity]].
    Ltac libs := repeat first [apply Forall_nil | apply Forall_cons; [lib|]].

    Lemma base_known : Forall (known D) cpp_base.
    Proof.
      unfold cpp_base. constructor; [right; eexists _, _; split; [reflexivity|exact Herrors]|]. repeat (constructor; [lib|]). constructor.
    Qed.
    Lemma type_far n : In n (structure_names g) -> known D (outer (ucamel n)).
    Proof.
      intros Hn. left. eexists. split; [reflexivity|]. split; [now apply Gtypes|]. left. destruct (Hcname n Hn) as (i & Hi).
      rewrite (ucamel_right _ _ Hi). now apply (upper_initial n); [|apply Hname].
    Qed.
    Lemma from_far n : In n (structure_names g) -> known D (outer (cpp_from n)).
    Proof. intros Hn. left. eexists. split; [reflexivity|]. split; [now apply Gfrom|]. right. left. apply ends_app. Qed.
    Lemma type_known t : ty_resolved g t -> Forall (known D) (cpp_type cpp t).
    Proof.
      induction t; cbn [cpp_type ty_resolved]; intros HT; try (now constructor); try solve [libs]; try solve [destruct (cpp_ctime cpp); libs].
      - now apply IHt.
      - now apply IHt.
      - constructor; [|constructor]. apply type_far. destruct (find_class g name) as [c|] eqn:E; [|congruence].
        apply find_some in E as [Hc E]. apply str_eqb_eq in E as <-. now apply class_structure.
      - constructor; [|constructor]. apply type_far. destruct (find_embed g name) as [e|] eqn:E; [|congruence].
        apply find_some in E as [He E]. apply str_eqb_eq in E as <-. now apply embed_structure.
    Qed.
    Lemma value_step t u ref : value_type g t ref -> (exists mn mx, t = TArray u mn mx) \/ t = TMap u -> exists ref', value_type g u ref'.
    Proof.
      intros [r ps p n Hc Hp Hin _] Hu. exists (r ++ s_ "/" ++ p_name p ++ levels (S n)). apply (value_type_at g u _ r ps p (S n)); [exact Hc|exact Hp| |reflexivity].
      now apply (inside_step _ _ _ Hin).
    Qed.
    Lemma support_known t : forall ref,
      value_type g t ref -> ty_resolved g t ->
      (forall n c, In n (classes_in t) -> find_class g n = Some c -> Forall (known D) (registry c)) ->
      (forall n c, In n (embeds_in t) -> In c (embed_references g n) -> Forall (known D) (registry c)) ->
      Forall (known D) (cpp_support cpp g registry t).
    Proof.
      induction t; intros ref HV HT HC HE; cbn [cpp_support]; apply Forall_app; (split; [exact base_known|]); try (now constructor);
        try solve [unfold ctime_support; destruct (cpp_ctime cpp); libs].
      - assert (E : cpp_needs_duration g = true) by (apply graph_needs_spec; try discriminate; [exact HR|exists TDuration, ref; now split]).
        apply Gduration in E. libs.
      - destruct (value_step _ t _ HV ltac:(left; eauto)) as (ref' & HV'). constructor; [lib|]. apply Forall_app. split; [now apply type_known|]. now apply (IHt ref').
      - destruct (value_step _ t _ HV ltac:(right; eauto)) as (ref' & HV'). apply Forall_app. split; [now apply type_known|]. now apply (IHt ref').
      - cbn in HT. destruct (find_class g name) as [c|] eqn:E; [|congruence]. apply (HC name); [now left|exact E].
      - cbn in HT. destruct (find_embed g name) as [e|] eqn:E; [|congruence]. apply find_some in E as [He E]. apply str_eqb_eq in E as <-.
        constructor; [apply from_far; now apply embed_structure|].
        apply Forall_flat_map. apply Forall_forall. intros c Hc. apply (HE (e_name e)); [now left|exact Hc].
    Qed.
  End Support.

  Ltac one_known := first
    [ right; eexists _, _; split; [reflexivity|solve [assumption | repeat first [apply in_eq | apply in_cons]]]
    | left; eexists; split; [reflexivity|split; [first [assumption | apply Glib, mem_In; reflexivity]|right; right; right; apply mem_In; reflexivity]] ].
  Ltac all_known := repeat first [apply Forall_nil | apply Forall_cons; [one_known|]].

  Lemma properties_known registry D r ps : composite g r ps ->
    In (Own "value", s_ "value") D -> In (Own "errors", s_ "errors") D -> In (Own "ref", s_ "ref") D -> In (Own "target", s_ "target") D ->
    (forall p n c, In p ps -> In n (classes_in (p_type p)) -> find_class g n = Some c -> Forall (known D) (registry c)) ->
    (forall p n c, In p ps -> In n (embeds_in (p_type p)) -> In c (embed_references g n) -> Forall (known D) (registry c)) ->
    Forall (known D) (own "errors" :: flat_map (property_needs cpp g registry) ps).
  Proof.
    intros Hc Hv He Hr Ht HC HE. constructor; [one_known|]. apply Forall_flat_map, Forall_forall. intros p Hp. unfold property_needs. cbn [app].
    do 4 (constructor; [one_known|]). destruct (composite_value_type _ _ _ _ Hc Hp) as (ref & HV).
    apply (support_known registry D He _ ref HV); [now apply (composite_resolved g HR r ps)|eauto|eauto].
  Qed.

  (** ** The parser of a class or an embeddable structure *)
  Lemma cpp_parse_composite_right k r ps : nth_error (composites g) k = Some ps -> k < root g -> composite g r ps ->
    block_right cpp_keywords globals (cpp_parse_composite cpp g (references_of g k) ps).
  Proof.
    intros Hk Hroot Hc. destruct (references_of_spec g HR HN k ps Hk Hroot) as (HI & HD & HC & HE).
    set (refs := references_of g k) in *.
    set (params := map (fun x => (Own x, s_ x)) ["value"%string] ++ map cpp_registry refs ++ map (fun x => (Own x, s_ x)) ["ref"; "target"; "errors"]%string).
    assert (Hok : frame_ok params).
    { unfold params. apply (frame_ok_intro _ _ _ "_registry"%string); [| |now left|exact HI|exact HD|reflexivity|].
      - repeat constructor; vm_compute; intuition discriminate.
      - intros x Hx. cbn in Hx |- *. tauto.
      - intros x c Hx _ ->. assert (K : forallb (fun y => negb (ends (s_ "_registry") y)) (map s_ ["value"; "ref"; "target"; "errors"]%string) = true) by (vm_compute; reflexivity).
        rewrite forallb_forall in K. apply K in Hx. now rewrite ends_app in Hx. }
    unfold block_right. change (map _ (fn_params _)) with (declares params).
    apply (frame_declares params []); [exact Hok|]. cbn [app].
    assert (Hp : forall x, In x ["value"; "ref"; "target"; "errors"]%string -> In (Own x, s_ x) params).
    { intros x [<-|Hx]; [now left|]. unfold params. rewrite !in_app_iff. right. right. now apply (in_map (fun x => (Own x, s_ x))). }
    assert (Hv := Hp "value"%string ltac:(now left)). assert (Hr := Hp "ref"%string ltac:(right; now left)).
    assert (Ht := Hp "target"%string ltac:(right; right; now left)). assert (He := Hp "errors"%string ltac:(right; right; right; now left)).
    cbn [cpp_parse_composite fn_body app].
    apply scoped_cons; [exact (Forall_inv (known_right params [own "value"] Hok ltac:(all_known)))|].
    apply (bad_type_scoped globals 0); [discriminate|apply known_safe; [exact Hok|]; unfold cpp_base; cbn [app]; all_known|].
    apply cpp_parse_properties_scoped; [intros c; repeat constructor; eexists _, _; left; reflexivity|now apply frame_vacant|].
    apply known_safe; [exact Hok|]. apply (properties_known _ params r); [exact Hc|assumption..| |].
    - intros p n c Hpp Hn Hcl. constructor; [|constructor]. right. eexists _, _. split; [reflexivity|]. unfold params. rewrite !in_app_iff. right. left.
      change (In (cpp_registry c) (map cpp_registry refs)). apply in_map. eapply HC; eauto.
    - intros p n c Hpp Hn Hcl. constructor; [|constructor]. right. eexists _, _. split; [reflexivity|]. unfold params. rewrite !in_app_iff. right. left.
      change (In (cpp_registry c) (map cpp_registry refs)). apply in_map. apply (HE p n Hpp Hn c Hcl).
  Qed.

  (** ** The parser of the graph *)
  Section Graph.
    Hypothesis Gspaces : forall c, In c (g_classes g) -> c_id_pattern c <> None -> In (cpp_id_space c) globals.
    Hypothesis Hinstance : forall c, In c (g_classes g) -> lower (c_plural c) <> s_ "instance".

    Definition own_vars (l : list string) : list (thing * str) := map (fun x => (Own x, s_ x)) l.
    Definition graph_params : list string := ["value"; "ref"; "target"; "errors"]%string.
    Definition graph_frame (l : list cls) (after : list string) : list (thing * str) := own_vars graph_params ++ map cpp_ref l ++ own_vars after.
    Lemma graph_frame_ok l after : after = [] \/ after = ["instance_ref"%string] -> incl l (g_classes g) -> NoDup l -> frame_ok (graph_frame l after).
    Proof.
      intros Ha H1 H2. apply (frame_ok_intro graph_params after cpp_ref "_ref"%string); [| |right; now left|exact H1|exact H2|reflexivity|].
      - destruct Ha as [-> | ->]; repeat constructor; vm_compute; intuition discriminate.
      - destruct Ha as [-> | ->]; intros x Hx; cbn in Hx |- *; tauto.
      - intros x c Hx Hc ->. assert (E : lower (c_plural c) ++ s_ "_ref" = s_ "instance_ref").
        { destruct Ha as [-> | ->].
          - assert (K : forallb (fun y => negb (ends (s_ "_ref") y)) (map s_ (graph_params ++ [])) = true) by (vm_compute; reflexivity).
            rewrite forallb_forall in K. apply K in Hx. now rewrite ends_app in Hx.
          - assert (K : forallb (fun y => negb (ends (s_ "_ref") y) || str_eqb y (s_ "instance_ref")) (map s_ (graph_params ++ ["instance_ref"%string])) = true) by (vm_compute; reflexivity).
            rewrite forallb_forall in K. apply K in Hx. rewrite ends_app in Hx. now apply str_eqb_eq in Hx. }
        change (s_ "instance_ref") with (s_ "instance" ++ s_ "_ref") in E. apply app_inv_tail in E. apply (Hinstance c); [now apply H1|exact E].
    Qed.
    Lemma graph_own_in l after x : In x graph_params \/ In x after -> In (Own x, s_ x) (graph_frame l after).
    Proof. intros H. unfold graph_frame. rewrite !in_app_iff. destruct H as [H|H]; [left|right; right]; now apply (in_map (fun x => (Own x, s_ x))). Qed.
    Lemma graph_ref_in l after c : In c l -> In (cpp_ref c) (graph_frame l after).
    Proof. intros H. unfold graph_frame. rewrite !in_app_iff. right. left. now apply in_map. Qed.

    (** Under blocks which declare the names [inner] *)
    Definition known_under (D : list (thing * str)) (inner : list str) (c : code) : Prop :=
      (exists x, c = outer x /\ In x globals /\ cpp_far x) \/ (exists t x, c = Mention t x /\ In (t, x) D /\ ~ In x inner).
    Lemma under_right D G c : frame_ok D -> (forall f x, In f G -> In x (keys f) -> In x inner_locals) ->
      known_under D inner_locals c -> right (G ++ [frame_of D]) c.
    Proof.
      intros HD HG Hc.
      assert (HM : forall x, ~ In x inner_locals -> meaning x (G ++ [frame_of D]) = meaning x [frame_of D]).
      { intros x Hx. clear Hc. induction G as [|f G IH]; [reflexivity|]. cbn [app S_Scope.meaning].
        rewrite IH by (intros f' y Hf Hy; apply (HG f' y); [now right|exact Hy]).
        destruct (lookup x f) as [t|] eqn:E; [|reflexivity]. exfalso. apply Hx. apply (HG f x); [now left|]. apply lookup_In in E. apply in_map_iff. now exists (x, t). }
      destruct Hc as [(x & -> & Hx & F)|(t & x & -> & Hx & Hn)].
      - exists (Outer x), x. split; [now left|]. rewrite HM by (intros Hin; now apply (inner_far x)).
        apply frame_outer; [|exact Hx]. intros Hin. apply (frame_name_far x); [now apply HD|exact F].
      - exists t, x. split; [now left|]. rewrite HM by exact Hn. now apply frame_meaning; [apply HD|].
    Qed.
    Lemma ref_outer c : ~ In (snd (cpp_ref c)) inner_locals.
    Proof.
      intros H. assert (K : forallb (fun y => negb (ends (s_ "_ref") y)) inner_locals = true) by (vm_compute; reflexivity).
      rewrite forallb_forall in K. apply K in H. cbn [cpp_ref snd] in H. now rewrite ends_app in H.
    Qed.

    Ltac ku := first
      [ right; eexists _, _; split; [reflexivity|split; [first [apply graph_own_in; cbn; tauto | apply graph_ref_in; assumption]|first [apply ref_outer | vm_compute; intuition discriminate]]]
      | left; eexists; split; [reflexivity|split; [first [assumption | apply Glib, mem_In; reflexivity]|first [assumption | right; right; right; apply mem_In; reflexivity]]] ].
    Ltac frames G F := apply (under_right F G);
      [assumption | intros ? ? Hf Hx; cbn in Hf; cbn; repeat (destruct Hf as [<-|Hf]; [cbn in Hx; tauto|]); destruct Hf | ku].
    Ltac und := first
      [ solve [eexists _, _; split; [left; reflexivity|reflexivity]]
      | match goal with
        | |- P_BlockScope.right _ [frame_of ?F] _ => frames (@nil (list (str * thing))) F
        | |- P_BlockScope.right _ (?a :: [frame_of ?F]) _ => frames [a] F
        | |- P_BlockScope.right _ (?a :: ?b :: [frame_of ?F]) _ => frames [a; b] F
        | |- P_BlockScope.right _ (?a :: ?b :: ?c :: [frame_of ?F]) _ => frames [a; b; c] F
        | |- P_BlockScope.right _ (?a :: ?b :: ?c :: ?d :: [frame_of ?F]) _ => frames [a; b; c; d] F
        end ].
    Ltac un := unfold cpp_new_instance, cpp_got, cpp_bad_type, cpp_report; cbn [app]; repeat first
      [ apply scoped_nil
      | apply scoped_block
      | match goal with
        | |- S_Scope.scoped _ _ (frame_of _ :: _) (let_own _ :: _) => fail 1
        | |- S_Scope.scoped _ _ _ (let_own _ :: _) => apply scoped_declare; [vm_compute; intuition discriminate|vm_compute; intuition discriminate|] end
      | apply scoped_cons; [und|] ].

    Lemma cpp_allocate_scoped done c l : incl (done ++ [c]) (g_classes g) -> NoDup (done ++ [c]) ->
      scoped [frame_of (graph_frame (done ++ [c]) [])] l -> scoped [frame_of (graph_frame done [])] (cpp_allocate c ++ l).
    Proof.
      intros Hi Hnd Hl. assert (Hok := graph_frame_ok _ [] ltac:(now left) Hi Hnd). assert (Hc : In c (g_classes g)) by (apply Hi; apply in_or_app; right; now left).
      assert (EF : graph_frame (done ++ [c]) [] = graph_frame done [] ++ [cpp_ref c]).
      { unfold graph_frame. rewrite map_app. cbn [own_vars map]. rewrite !app_nil_r, <- app_assoc. reflexivity. }
      assert (Hcin : In c (done ++ [c])) by (apply in_or_app; right; now left).
      destruct (type_far [] (c_name c) ltac:(apply class_structure; exact Hc)) as [(x & Ex & Htype & Hfar)|(t & x & Ex & [])]. injection Ex as Ex. subst x.
      unfold cpp_allocate. cbn [app]. apply frame_declare; [rewrite EF in Hok; exact Hok|]. change (fst (cpp_ref c), snd (cpp_ref c)) with (cpp_ref c). rewrite <- EF.
      destruct (c_id_pattern c) as [pt|] eqn:Ep.
      - assert (Gs : In (cpp_id_space c) globals) by (apply Gspaces; [exact Hc|congruence]).
        assert (Fs : cpp_far (cpp_id_space c)) by (right; right; left; apply ends_app). un. exact Hl.
      - un. exact Hl.
    Qed.

    Lemma cpp_fill_scoped refs c l : In c (g_classes g) ->
      let F := graph_frame (g_classes g) ["instance_ref"%string] in
      scoped [frame_of F] l -> scoped [frame_of F] (cpp_fill refs c ++ l).
    Proof.
      intros Hc F Hl.
      assert (Hok : frame_ok F) by (apply graph_frame_ok; [now right|apply incl_refl|now apply (NoDup_map_inv c_name)]).
      destruct (type_far [] (c_name c) ltac:(apply class_structure; exact Hc)) as [(x & Ex & Htype & Hfar)|(t & x & Ex & [])]. injection Ex as Ex. subst x.
      destruct (from_far [] (c_name c) ltac:(apply class_structure; exact Hc)) as [(x & Ex & Hfrom & Hffar)|(t & x & Ex & [])]. injection Ex as Ex. subst x.
      unfold cpp_fill. unfold F in *. cbn [app]. un.
      - apply scoped_right; [|un]. apply Forall_forall. intros x Hx. apply in_map_iff in Hx as (d & <- & _). und.
      - exact Hl.
    Qed.

    Lemma cpp_parse_graph_right : block_right cpp_keywords globals (cpp_parse_graph cpp g).
    Proof.
      assert (HNc : NoDup (g_classes g)) by (now apply (NoDup_map_inv c_name)).
      assert (Hok0 := graph_frame_ok [] [] ltac:(now left) (fun x H => match H with end) (NoDup_nil _)).
      unfold block_right. cbn [cpp_parse_graph fn_params fn_body].
      apply (frame_declares (graph_frame [] []) []); [exact Hok0|]. cbn [app].
      do 3 (apply scoped_cons; [und|]).
      apply (bad_type_scoped globals 0); [discriminate|apply known_safe; [exact Hok0|]; unfold cpp_base; cbn [app]; all_known|].
      assert (HA : forall l done rest, incl (done ++ l) (g_classes g) -> NoDup (done ++ l) ->
        scoped [frame_of (graph_frame (done ++ l) [])] rest -> scoped [frame_of (graph_frame done [])] (flat_map cpp_allocate l ++ rest)).
      { induction l as [|c l IH]; intros done rest Hi Hnd Hrest; [now rewrite app_nil_r in Hrest|]. cbn [flat_map]. rewrite <- app_assoc.
        replace (done ++ c :: l) with ((done ++ [c]) ++ l) in * by (now rewrite <- app_assoc).
        apply cpp_allocate_scoped; [intros x Hx; apply Hi; apply in_or_app; now left|now apply NoDup_app_parts in Hnd|]. now apply IH. }
      apply (HA (g_classes g) []); [apply incl_refl|exact HNc|]. cbn [app].
      assert (HP : forall after, after = [] \/ after = ["instance_ref"%string] ->
        scoped [frame_of (graph_frame (g_classes g) after)] (cpp_parse_properties cpp g (fun _ => [own "target"]) (g_props g) 0)).
      { intros after Ha. assert (Hok := graph_frame_ok _ after Ha (incl_refl _) HNc).
        apply cpp_parse_properties_scoped; [intros c; repeat constructor; eexists _, _; left; reflexivity|now apply frame_vacant|].
        apply known_safe; [exact Hok|].
        assert (Ht := graph_own_in (g_classes g) after "target" ltac:(cbn; tauto)).
        apply (properties_known _ _ (g_ref g)); [constructor|apply graph_own_in; cbn; tauto..| |]; intros; all_known. }
      assert (Hcase : g_classes g = [] \/ exists c l, g_classes g = c :: l) by (destruct (g_classes g); eauto).
      destruct Hcase as [E|(c0 & l0 & E)].
      - specialize (HP [] ltac:(now left)). rewrite E in *. cbn [app flat_map combine List.seq length]. exact HP.
      - replace (match g_classes g with [] => [] | _ => [own "errors"; let_own "instance_ref"] end) with [own "errors"; let_own "instance_ref"] by (now rewrite E).
        assert (Hok := graph_frame_ok _ [] ltac:(now left) (incl_refl _) HNc).
        assert (Hok' := graph_frame_ok _ ["instance_ref"%string] ltac:(now right) (incl_refl _) HNc).
        cbn [app]. apply scoped_cons; [und|].
        assert (EF : graph_frame (g_classes g) ["instance_ref"%string] = graph_frame (g_classes g) [] ++ [(Own "instance_ref", s_ "instance_ref")]).
        { unfold graph_frame. cbn [own_vars map]. now rewrite app_nil_r, <- app_assoc. }
        apply frame_declare; [rewrite <- EF; exact Hok'|]. rewrite <- EF.
        assert (HF : forall l rest, (forall x, In x l -> In (fst x) (g_classes g)) -> scoped [frame_of (graph_frame (g_classes g) ["instance_ref"%string])] rest ->
          scoped [frame_of (graph_frame (g_classes g) ["instance_ref"%string])] (flat_map (fun ck => cpp_fill (references_of g (snd ck)) (fst ck)) l ++ rest)).
        { induction l as [|x l IH]; intros rest Hi Hrest; [exact Hrest|]. cbn [flat_map]. rewrite <- app_assoc.
          apply cpp_fill_scoped; [apply Hi; now left|]. apply IH; [intros y Hy; apply Hi; now right|exact Hrest]. }
        apply HF; [|apply HP; now right]. intros [x k] Hx. now apply in_combine_l in Hx.
    Qed.
  End Graph.

  (** ** Serialization *)
  Section To.
    Hypothesis Gserializers : forall n, In n (structure_names g) -> In (cpp_serializer_name n) globals.
    Hypothesis Gtm : cpp_ctime cpp = true -> cpp_needs_date g = true -> In (s_ "tm_to_string") globals.
    Hypothesis Gto_duration : cpp_needs_duration g = true -> In (s_ "duration_to_string") globals.

    Lemma other_letter a r n : is_digit a = false -> ~ In a [116%N; 118%N; 109%N; 105%N; 107%N] -> ~ tnum n (a :: r).
    Proof.
      intros Hd Ha. apply num_other. unfold stem_of. cbn [takewhile]. rewrite Hd. cbn [negb]. intros H. apply Ha. vm_compute in H. cbn [In].
      repeat (destruct H as [H|H]; [injection H as <- _; tauto|]). destruct H.
    Qed.
    Lemma capital_unnumbered x n : capital_name x -> ~ tnum n x.
    Proof.
      intros (a & r & -> & Ha). unfold is_upper in Ha. rewrite andb_true_iff, !N.leb_le in Ha. apply other_letter.
      - unfold is_digit. rewrite andb_false_iff, !N.leb_gt. lia.
      - cbn. intros H. lia.
    Qed.

    Section Structure.
      Variable name : str.
      Hypothesis Akeyword : ~ In (lower name) cpp_keywords.
      Hypothesis Afunctions : ~ In (lower name) (map s_ ["tm_to_string"; "duration_to_string"]%string).
      Hypothesis Anumbered : forall stem k, In stem to_stems -> lower name <> stem ++ dec_nat k.
      Hypothesis Aserializers : forall m, In m (structure_names g) -> lower name <> cpp_serializer_name m /\ lower name ++ s_ "_as_value" <> cpp_serializer_name m.

      Definition structure_frame : list (list (str * thing)) := [[(lower name ++ s_ "_as_value", Own "result"); (lower name, Own "structure")]].
      Notation F := structure_frame.
      Notation tready := (ready globals to_stems).

      Lemma name_shorter : lower name <> lower name ++ s_ "_as_value".
      Proof. intros E. apply (f_equal (@length _)) in E. rewrite app_length in E. cbn in E. lia. Qed.
      Lemma name_unnumbered n : ~ tnum n (lower name).
      Proof. intros (H & k & _ & E). now apply (Anumbered (stem_of (lower name)) k). Qed.
      Lemma result_unnumbered n x : ~ tnum n (x ++ s_ "_as_value").
      Proof. apply num_no_digit. now rewrite last_char_app. Qed.
      Lemma param_ready n : tready n F (mention (cpp_param name)).
      Proof.
        apply ready_mention; [|apply name_unnumbered]. unfold F. rewrite meaning_skip by apply name_shorter. apply meaning_here.
      Qed.
      Lemma result_ready n : tready n F (mention (cpp_result name)).
      Proof. apply ready_mention; [apply meaning_here|apply result_unnumbered]. Qed.
      Lemma outer_meaning x : In x globals -> x <> lower name -> x <> lower name ++ s_ "_as_value" -> meaning x F = Some (Outer x).
      Proof.
        intros H H1 H2. unfold F. rewrite !meaning_skip by assumption. cbn [S_Scope.meaning lookup]. apply mem_In in H. now rewrite H.
      Qed.
      Lemma fixed_result x : ends (s_ "_as_value") x = false -> x <> lower name ++ s_ "_as_value".
      Proof. intros H ->. now rewrite ends_app in H. Qed.
      Lemma serializer_ready m n : In m (structure_names g) -> tready n F (outer (cpp_serializer_name m)).
      Proof.
        intros Hm. destruct (Aserializers m Hm) as [H1 H2]. apply ready_mention; [apply outer_meaning; [now apply Gserializers|congruence..]|].
        apply other_letter; [reflexivity|]. cbn. intuition discriminate.
      Qed.

      Lemma to_support_ready n t : forall ref, value_type g t ref -> ty_resolved g t -> Forall (tready n F) (to_support cpp t).
      Proof.
        assert (Hdate : forall t ref, value_type g t ref -> (exists fm, t = TDate fm \/ t = TTime fm \/ t = TDatetime fm) ->
          Forall (tready n F) (if cpp_ctime cpp then [outer (s_ "tm_to_string")] else [])).
        { intros t' ref HV Ht. destruct (cpp_ctime cpp) eqn:Ec; [|constructor]. constructor; [|constructor].
          assert (E : cpp_needs_date g = true).
          { unfold cpp_needs_date. rewrite !orb_true_iff, !graph_needs_spec by (exact HR || discriminate).
            destruct Ht as (fm & [->|[->| ->]]); [left; left|left; right|right]; (eexists _, ref; split; [exact HV|reflexivity]). }
          apply ready_mention; [apply outer_meaning; [now apply Gtm|intros C; apply Afunctions; rewrite <- C; now left|now apply fixed_result]|].
          apply num_no_digit. reflexivity. }
        induction t; intros ref HV HT; cbn [to_support]; try (now constructor); try (apply (Hdate _ _ HV); eauto; fail).
        - constructor; [|constructor].
          assert (E : cpp_needs_duration g = true) by (apply graph_needs_spec; try discriminate; [exact HR|exists TDuration, ref; now split]).
          apply ready_mention; [apply outer_meaning; [now apply Gto_duration|intros C; apply Afunctions; rewrite <- C; right; now left|now apply fixed_result]|].
          apply num_no_digit. reflexivity.
        - destruct (value_step _ t _ HV ltac:(left; eauto)) as (ref' & HV'). now apply (IHt ref').
        - destruct (value_step _ t _ HV ltac:(right; eauto)) as (ref' & HV'). now apply (IHt ref').
        - cbn in HT. destruct (find_embed g name0) as [e|] eqn:E; [|congruence]. apply find_some in E as [He E]. apply str_eqb_eq in E as <-.
          constructor; [|constructor]. apply serializer_ready. now apply embed_structure.
      Qed.

      Lemma structure_scoped r ps rest : composite g r ps ->
        (forall D, Forall (fun p => tnum 0 (fst p)) D -> scoped (enter D F) rest) ->
        scoped [[(lower name, Own "structure")]]
          (Declare (fst (cpp_result name)) (snd (cpp_result name)) ::
           cpp_serialize_properties cpp [mention (cpp_param name)] [mention (cpp_result name)] ps 0 ++ rest).
      Proof.
        intros Hc Hrest. apply scoped_declare.
        - intros H. assert (K : forallb (fun y => negb (ends (s_ "_as_value") y)) cpp_keywords = true) by (vm_compute; reflexivity).
          rewrite forallb_forall in K. apply K in H. cbn [cpp_result snd] in H. now rewrite ends_app in H.
        - intros [E|[]]. now apply name_shorter.
        - cbn [cpp_result fst snd]. change (scoped F (cpp_serialize_properties cpp [mention (cpp_param name)] [mention (cpp_result name)] ps 0 ++ rest)).
          apply cpp_serialize_properties_scoped.
          + intros x Hx [E|[E|[]]]; subst x; [now apply result_unnumbered in Hx|now apply name_unnumbered in Hx].
          + apply Forall_flat_map, Forall_forall. intros p Hp. unfold to_property_needs. cbn [app].
            constructor; [apply param_ready|]. constructor; [apply result_ready|]. destruct (composite_value_type _ _ _ _ Hc Hp) as (ref & HV).
            apply (to_support_ready 0 _ ref HV). now apply (composite_resolved g HR r ps).
          + intros D n' HD _. apply Hrest. revert HD. apply Forall_impl. tauto.
      Qed.
      Lemma enter_meaning D x : Forall (fun p => tnum 0 (fst p)) D -> ~ tnum 0 x -> meaning x (enter D F) = meaning x F.
      Proof.
        intros HD Hx. unfold F, enter. cbn [S_Scope.meaning]. rewrite lookup_app. destruct (lookup x (rev D)) as [t|] eqn:E; [|reflexivity].
        exfalso. apply Hx. apply lookup_In in E. apply in_rev in E. rewrite Forall_forall in HD. now apply HD in E.
      Qed.
      Lemma result_right D : Forall (fun p => tnum 0 (fst p)) D -> right (enter D F) (mention (cpp_result name)).
      Proof. intros HD. eexists _, _. split; [left; reflexivity|]. rewrite enter_meaning by (exact HD || apply result_unnumbered). apply meaning_here. Qed.

      Lemma cpp_serializer_right r ps : composite g r ps -> block_right cpp_keywords globals (cpp_serializer cpp name ps).
      Proof.
        intros Hc. unfold block_right. cbn [cpp_serializer fn_params fn_body map cpp_param fst snd app].
        apply scoped_declare; [exact Akeyword|intros []|]. destruct ps as [|p ps]; [apply scoped_nil|].
        apply (structure_scoped r (p :: ps) _ Hc). intros D HD. apply scoped_cons; [now apply result_right|apply scoped_nil].
      Qed.
    End Structure.

    Section SerializeGraph.
      Hypothesis Akeyword : ~ In (lower (g_name g)) cpp_keywords.
      Hypothesis Afunctions : ~ In (lower (g_name g)) (map s_ ["tm_to_string"; "duration_to_string"]%string).
      Hypothesis Anumbered : forall stem k, In stem to_stems -> lower (g_name g) <> stem ++ dec_nat k.
      Hypothesis Aserializers : forall m, In m (structure_names g) -> lower (g_name g) <> cpp_serializer_name m /\ lower (g_name g) ++ s_ "_as_value" <> cpp_serializer_name m.
      Hypothesis Astrlen : lower (g_name g) <> s_ "strlen".
      Hypothesis Aplurals : forall c, In c (g_classes g) ->
        lower (c_plural c) <> lower (g_name g) /\ lower (c_plural c) ++ s_ "_as_value" <> lower (g_name g) /\
        lower (c_plural c) ++ s_ "_as_value" <> cpp_serializer_name (c_name c).
      Notation F := (structure_frame (g_name g)).

      Lemma as_value_own x y : ends (s_ "_as_value") (s_ y) = false -> s_ y <> x ++ s_ "_as_value".
      Proof. intros H E. rewrite E, ends_app in H. discriminate. Qed.
      Lemma capital_own x y : capital_name x -> small_name y -> x <> y.
      Proof. intros H1 H2 ->. now apply small_not_capital in H2. Qed.

      Lemma cpp_serialize_registry_scoped D c l : Forall (fun p => tnum 0 (fst p)) D -> In c (g_classes g) ->
        scoped (enter D F) l -> scoped (enter D F) (cpp_serialize_registry g c ++ l).
      Proof.
        intros HD Hc Hl. destruct (Aplurals c Hc) as (P1 & P2 & P3). assert (Hcs := class_structure g c Hc). destruct (Aserializers _ Hcs) as [S1 S2].
        set (T := lower (c_plural c) ++ s_ "_as_value") in *. set (R := lower (g_name g) ++ s_ "_as_value") in *.
        assert (MP : meaning (lower (g_name g)) (enter D F) = Some (Own "structure")).
        { rewrite enter_meaning by (exact HD || now apply name_unnumbered). unfold structure_frame. rewrite meaning_skip by (now apply name_shorter). apply meaning_here. }
        assert (MR : meaning R (enter D F) = Some (Own "result")).
        { rewrite enter_meaning by (exact HD || apply result_unnumbered). apply meaning_here. }
        assert (ML : meaning (s_ "strlen") (enter D F) = Some (Outer (s_ "strlen"))).
        { rewrite enter_meaning by (exact HD || (apply num_no_digit; reflexivity)). apply outer_meaning; [apply Glib, mem_In; reflexivity|congruence|now apply fixed_result]. }
        assert (MS : meaning (cpp_serializer_name (c_name c)) (enter D F) = Some (Outer (cpp_serializer_name (c_name c)))).
        { rewrite enter_meaning; [|exact HD|apply other_letter; [reflexivity|cbn; intuition discriminate]]. apply outer_meaning; [now apply Gserializers|now apply not_eq_sym|now apply not_eq_sym]. }
        assert (HU : capital_name (ucamel (c_name c))).
        { destruct (Hcname _ Hcs) as (i & Hi). rewrite (ucamel_right _ _ Hi). now apply (upper_initial (c_name c)); [|apply Hname]. }
        assert (MU : meaning (ucamel (c_name c)) (enter D F) = Some (Outer (ucamel (c_name c)))).
        { rewrite enter_meaning by (exact HD || now apply capital_unnumbered). apply outer_meaning; [now apply Gtypes| |].
          - apply capital_own; [exact HU|]. rewrite <- (app_nil_r (lower _)). apply small_structure; now left.
          - apply capital_own; [exact HU|]. apply small_structure; now left. }
        assert (TR : T <> R) by (intros E; apply app_inv_tail in E; contradiction).
        assert (UT : ucamel (c_name c) <> T) by (apply capital_own; [exact HU|now apply small_plural]).
        assert (SS : small_name T) by (now apply small_plural).
        assert (KT : ~ In T cpp_keywords).
        { intros H. assert (K : forallb (fun y => negb (ends (s_ "_as_value") y)) cpp_keywords = true) by (vm_compute; reflexivity).
          rewrite forallb_forall in K. apply K in H. unfold T in H. now rewrite ends_app in H. }
        unfold cpp_serialize_registry. cbn [cpp_param cpp_result cpp_registry_value fst snd mention app]. fold T R.
        Ltac apart := match goal with
          | |- ?x <> ?y => first [assumption | apply not_eq_sym; assumption
              | apply as_value_own; reflexivity | apply not_eq_sym, as_value_own; reflexivity
              | apply capital_own; [assumption|eexists _, _; split; reflexivity]
              | discriminate ] end.
        Ltac me := eexists _, _; split; [left; reflexivity|];
          repeat first [rewrite meaning_block | apply meaning_here | rewrite meaning_skip by apart]; assumption.
        repeat first [apply scoped_cons; [solve [me]|] | apply scoped_nil | apply scoped_block
          | apply scoped_declare; [exact KT|intros []|]
          | apply scoped_declare; [vm_compute; intuition discriminate|vm_compute; intuition discriminate|] ].
        exact Hl.
      Qed.

      Lemma cpp_serialize_graph_right : block_right cpp_keywords globals (cpp_serialize_graph cpp g).
      Proof.
        unfold block_right. cbn [cpp_serialize_graph fn_params fn_body map cpp_param fst snd app].
        apply scoped_declare; [exact Akeyword|intros []|].
        assert (H : scoped [[(lower (g_name g), Own "structure")]]
          (Declare (fst (cpp_result (g_name g))) (snd (cpp_result (g_name g))) ::
           cpp_serialize_properties cpp [mention (cpp_param (g_name g))] [mention (cpp_result (g_name g))] (g_props g) 0 ++
           flat_map (cpp_serialize_registry g) (g_classes g) ++ [mention (cpp_result (g_name g))])).
        { apply (structure_scoped _ Afunctions Anumbered Aserializers (g_ref g)); [constructor|].
          intros D HD. assert (HA : forall l, incl l (g_classes g) -> scoped (enter D F) (flat_map (cpp_serialize_registry g) l ++ [mention (cpp_result (g_name g))])).
          { induction l as [|c l IH]; intros Hl; [apply scoped_cons; [now apply result_right|apply scoped_nil]|]. cbn [flat_map]. rewrite <- app_assoc.
            apply cpp_serialize_registry_scoped; [exact HD|apply Hl; now left|]. apply IH. intros x Hx. apply Hl. now right. }
          apply HA, incl_refl. }
        destruct (g_props g), (g_classes g); [apply scoped_nil|exact H..].
      Qed.
    End SerializeGraph.
  End To.
End Functions.
