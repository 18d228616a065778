(** Proofs about the names in the generated Go functions, continued: the serialization, the
    functions and the package. *)
From Coq Require Import String List Arith NArith ZArith Bool Lia.
From Verif Require Import Base M_Naming M_Schema M_Dec M_TypeGraph M_Walk M_GoImports M_Text M_GoGen M_AutoID S_Scope M_Scope M_GoScope
  S_TypeGraph S_Conform S_Walk S_GoImports S_LangValid P_Common P_AutoID P_TypeGraph P_Walk T_Walk P_GoImports P_References P_Naming P_LangValid P_Scope P_PyScope P_BlockScope P_GoScope.
Import ListNotations.
Open Scope list_scope.
Local Open Scope nat_scope.


Section Go.
  Variable g : graph.
  Variable globals : list str.
  Notation meaning := (meaning globals).
  Notation scoped := (scoped go_keywords globals).
  Notation right := (right globals).
  Notation gready := (ready globals go_stems).
  Notation gfree := (free go_stems).

  (** * Serialization *)

  Fixpoint to_support (t : ty) : list code :=
    match t with
    | TDuration => [outer (s_ "durationToString")]
    | TArray values _ _ | TMap values => to_support values
    | TEmbed n => [outer (go_to n)]
    | _ => []
    end.
  Definition to_base : list code := [outer (s_ "len"); outer (s_ "make"); outer (s_ "string"); outer (s_ "nil")].
  Definition to_needs (t : ty) (value target : list code) : list code := value ++ target ++ to_base ++ to_support t.

  Lemma go_serialize_next t : forall value target n, n <= snd (go_serialize t value target n).
  Proof.
    induction t as [|b|b|pt|pt|fm|fm|fm| | |t IH mn mx|t IH|c|e]; intros value target n; cbn [go_serialize snd]; try lia.
    - match goal with |- context[go_serialize t ?v ?r ?m] => specialize (IH v r m); destruct (go_serialize t v r m) as [item n'] end.
      cbn [snd] in *. lia.
    - match goal with |- context[go_serialize t ?v ?r ?m] => specialize (IH v r m); destruct (go_serialize t v r m) as [item n'] end.
      cbn [snd] in *. lia.
  Qed.

  Ltac open_needs ::= unfold to_needs; cbn [to_support]; unfold to_base in *.
  Ltac open_needs_in Hc ::= unfold to_needs in Hc.
  Ltac numbered := first [split; [apply gnum_auto; [stem|lia]|split; [apply gnum_below; [stem|lia]|reflexivity]]].

  Lemma go_serialize_scoped t : forall value target n F,
    gfree n F -> Forall (gready n F) (to_needs t value target) ->
    scoped F (fst (go_serialize t value target n)) /\
    numbered_tops n (snd (go_serialize t value target n)) (fst (go_serialize t value target n)).
  Proof.
    induction t as [|b|b|pt|pt|fm|fm|fm| | |t IH mn mx|t IH|c|e]; intros value target n [|f F] Hfree H; try contradiction;
      (assert (Hv : tops value = [] /\ tops target = []) by
        (split; apply tops_plain, Forall_forall; intros c0 Hc; refine (right_plain _ _ _ (proj1 (Forall_forall _ _) (sub_right _ _ _ _ _ H _) c0 Hc)); incl_needs));
      destruct Hv as [Tv Tt].
    1-10,13-14: cbn [go_serialize fst snd]; unfold numbered_tops.
    all: try (destruct (M_GoGen.layout fm)).
    1-15: split; [repeat sc|cbn [tops outer]; rewrite ?tops_app, ?Tv, ?Tt; constructor].
    - cbn [go_serialize]. specialize (IH [use "slice" n; use "i" n] [use "target" n; use "i" n] (S n)).
      pose proof (go_serialize_next t [use "slice" n; use "i" n] [use "target" n; use "i" n] (S n)) as L.
      destruct (go_serialize t _ _ (S n)) as [item n']. cbn [fst snd] in *. split.
      + repeat sc.
        match goal with H : Forall (ready _ _ _ ?F0) _ |- _ => destruct (IH F0) as (S1 & T1) end; [|item_ready H|exact S1].
        apply free_declare; [apply gnum_below; [stem|lia]|apply free_block].
      + unfold numbered_tops. cbn [tops outer app]. rewrite !tops_app. cbn [tops outer let_auto use app]. rewrite !tops_app. cbn [tops outer let_auto use app].
        rewrite Tv, Tt. repeat (constructor; [numbered|]). constructor.
    - cbn [go_serialize]. specialize (IH [use "v" n] [use "target" n; use "k" n] (S n)).
      pose proof (go_serialize_next t [use "v" n] [use "target" n; use "k" n] (S n)) as L.
      destruct (go_serialize t _ _ (S n)) as [item n']. cbn [fst snd] in *. split.
      + repeat sc.
        match goal with H : Forall (ready _ _ _ ?F0) _ |- _ => destruct (IH F0) as (S1 & T1) end; [|item_ready H|exact S1].
        apply free_declare; [apply gnum_below; [stem|lia]|]. apply free_declare; [apply gnum_below; [stem|lia]|apply free_block].
      + unfold numbered_tops. cbn [tops outer app let_auto]. rewrite !tops_app. cbn [tops outer let_auto use app].
        rewrite Tv, Tt. repeat (constructor; [numbered|]). constructor.
  Qed.

  Definition to_property_needs (p : prop) : list code :=
    [own "instance"; own "target"; outer (s_ "nil")] ++ to_base ++ to_support (p_type p).
  Ltac open_needs ::= unfold to_property_needs, to_needs, to_base in *.

  Lemma go_serialize_properties_scoped ps : forall n F rest,
    gfree n F -> Forall (gready n F) (flat_map to_property_needs ps) ->
    (forall D n', Forall (fun p => gnum n (fst p) /\ ~ gnum n' (fst p)) D -> n <= n' -> scoped (enter D F) rest) ->
    scoped F (go_serialize_properties ps n ++ rest).
  Proof.
    induction ps as [|p ps IH]; intros n F rest Hfree H Hrest; cbn [go_serialize_properties].
    - destruct F as [|f F]; [destruct Hfree|]. cbn [app]. exact (Hrest [] n (Forall_nil _) (le_n _)).
    - cbn [flat_map] in H. apply Forall_app in H as [Hp Hps]. unfold go_serialize_property.
      pose proof (go_serialize_scoped (p_type p) [own "instance"] [own "target"] n) as HS.
      pose proof (go_serialize_next (p_type p) [own "instance"] [own "target"] n) as L.
      destruct (go_serialize (p_type p) _ _ n) as [serialization n']. cbn [fst snd] in *.
      assert (HN : forall F', Forall (gready n F') (to_property_needs p) -> Forall (gready n F') (to_needs (p_type p) [own "instance"] [own "target"])).
      { intros F' H'. refine (sub_ready _ _ _ _ _ H' _). incl_needs. }
      assert (HF : F <> []) by (now apply free_nonempty in Hfree).
      assert (Hgo : forall D, Forall (fun q => gnum n (fst q) /\ ~ gnum n' (fst q)) D -> scoped (enter D F) (go_serialize_properties ps n' ++ rest)).
      { intros D HD. apply IH.
        - apply free_enter; [|now apply (free_le _ n n')]. revert HD. apply Forall_impl. tauto.
        - apply (ready_le _ _ n n'); [exact L|]. apply ready_enter; [|exact Hps]. revert HD. apply Forall_impl. tauto.
        - intros D' n'' HD' L'. replace (enter D' (enter D F)) with (enter (D ++ D') F)
            by (destruct F; [congruence|]; cbn [enter]; now rewrite rev_app_distr, app_assoc).
          apply (Hrest _ n''); [|lia]. apply Forall_app. split.
          + revert HD. apply Forall_impl. intros q [H1 H2]. split; [exact H1|]. intros H3. apply H2. now apply (num_le _ _ n'').
          + revert HD'. apply Forall_impl. intros q [H1 H2]. split; [now apply (num_le _ _ n')|exact H2]. }
      destruct (p_optional p).
      + cbn [app]. destruct F as [|f F]; [congruence|]. rename Hp into H.
        do 2 sc. apply scoped_block; [|exact (Hgo [] (Forall_nil _))].
        apply ready_block in H. exact (proj1 (HS _ (free_block _ _ _) (HN _ H))).
      + rewrite <- app_assoc. destruct (HS F Hfree (HN _ Hp)) as [S1 T1]. apply scoped_app; [exact HF|exact S1|].
        apply Hgo. revert T1. apply Forall_impl. tauto.
  Qed.
End Go.

(** * Names *)

Lemma split_parts parts : parts <> [] -> (forall p, In p parts -> p <> [] /\ ~ In 95%N p) -> split_identifier (join (s_ "_") parts) = parts.
Proof.
  intros Hne Hp. unfold split_identifier, underscore. induction parts as [|p parts IH]; [congruence|]. destruct parts as [|q parts].
  - cbn. apply split_on_id. apply Hp. now left.
  - change (join (s_ "_") (p :: q :: parts)) with (p ++ 95%N :: join (s_ "_") (q :: parts)).
    assert (E : forall a b, ~ In 95%N a -> split_on 95%N (a ++ 95%N :: b) = a :: split_on 95%N b).
    { clear. induction a as [|x a IH]; intros b H; cbn; [reflexivity|].
      destruct (N.eqb_spec x 95); [exfalso; apply H; left; congruence|]. rewrite IH; [reflexivity|]. intros C; apply H; now right. }
    rewrite E by (apply Hp; now left). f_equal. apply IH; [discriminate|]. intros x Hx. apply Hp. now right.
Qed.
Lemma camel_lower n i : lower_camel n i -> camel_case n = Ok i.
Proof.
  intros (p & parts & -> & H & ->). unfold camel_case. rewrite (split_parts (p :: parts)) by (discriminate || exact H).
  destruct (H p (or_introl eq_refl)) as [Hp _]. destruct p as [|c r]; [congruence|].
  assert (E : capitalize_parts parts = Ok (map with_capital parts)).
  { apply capitalize_parts_iff. split; [intros q Hq; apply H; now right|reflexivity]. }
  rewrite E. cbn [bind]. cbn [lower map concat app]. rewrite lower_c_idem, N.eqb_refl. destruct parts; reflexivity.
Qed.
Lemma camel_upper n i : upper_camel n i -> exists j, lower_camel n j.
Proof. intros (parts & -> & Hne & Hp & _). destruct parts as [|p parts]; [congruence|]. eexists. exists p, parts. auto. Qed.
Lemma upper_initial n i : upper_camel n i -> capital_name n -> capital_name i.
Proof.
  intros (parts & -> & Hne & Hp & ->) (a & r & E & Ha). destruct parts as [|[|b p] parts]; [congruence|destruct (Hp [] (or_introl eq_refl)); congruence|].
  assert (b = a) by (destruct parts; injection E as E _; exact E). subst b. cbn [map with_capital concat app].
  exists (upper_c a), (p ++ concat (map with_capital parts)). split; [reflexivity|]. unfold upper_c.
  destruct (is_lower a) eqn:El; [|exact Ha]. exfalso. unfold is_upper, is_lower in *. rewrite andb_true_iff, !N.leb_le in *. lia.
Qed.
Definition small_name (n : str) : Prop := exists a r, n = a :: r /\ is_lower a = true.
Lemma lower_initial n i : lower_camel n i -> capital_name n -> small_name i.
Proof.
  intros (p & parts & -> & Hp & ->) (a & r & E & Ha). destruct (Hp p (or_introl eq_refl)) as [Hne _]. destruct p as [|b p]; [congruence|].
  assert (b = a) by (destruct parts; injection E as E _; exact E). subst b.
  destruct (lower_letter (a :: p) (concat (map with_capital parts))) as (c & q & Ec & Hc); [now exists a, p|].
  exists c, q. now split.
Qed.

(** * The package *)

Definition go_packages : list str := [pkg_fmt; pkg_math; pkg_regexp; pkg_strconv; pkg_strings; pkg_time].
Definition own_locals : list str := map s_ ["value"; "id"; "ref"; "target"; "errors"; "cast"; "ok"; "instance"; "err"]%string.
Definition roles : list string := ["Registry"; "Ref"; "Ok"; "Value"; "Map"]%string.

Lemma small_not_capital n : small_name n -> ~ capital_name n.
Proof.
  intros (a & r & -> & Ha) (b & q & E & Hb). injection E as -> _. unfold is_upper, is_lower in *. rewrite andb_true_iff, !N.leb_le in *. lia.
Qed.
Lemma small_app n x : small_name n -> small_name (n ++ x).
Proof. intros (a & r & -> & Ha). now exists a, (r ++ x). Qed.
Lemma capital_app n x : capital_name n -> capital_name (n ++ x).
Proof. intros (a & r & -> & Ha). now exists a, (r ++ x). Qed.
Lemma role_last r x : In r roles -> last_char (x ++ s_ r) = last_char (s_ r).
Proof. intros H. apply last_char_app. cbn in H. repeat (destruct H as [<-|H]; [discriminate|]). destruct H. Qed.
Lemma role_eq r r' x x' : In r roles -> In r' roles -> x ++ s_ r = x' ++ s_ r' -> r = r' /\ x = x'.
Proof.
  intros H H' E. assert (EL := f_equal last_char E). rewrite !role_last in EL by assumption.
  assert (r = r') as <-; [|split; [reflexivity|exact (app_inv_tail _ _ _ E)]].
  cbn in H, H'. repeat (destruct H as [<-|H]; [repeat (destruct H' as [<-|H']; [first [reflexivity | discriminate EL]|]); destruct H'|]). destruct H.
Qed.

(** What can be known outside of a function *)
Definition go_far (x : str) : Prop :=
  capital_name x \/ In x (go_predeclared ++ go_packages ++ map s_ ["durationFromString"; "durationToString"]%string) \/
  exists k, x = s_ "pattern" ++ dec_nat k.

Section Package.
  Variable g : graph.
  Hypothesis HR : resolved g.
  Hypothesis HN : NoDup (map c_name (g_classes g)).
  Hypothesis Hplural : forall c, In c (g_classes g) -> capital_name (c_plural c).
  Hypothesis Hname : forall n, In n (structure_names g) -> capital_name n.
  Hypothesis Hcplural : forall c, In c (g_classes g) -> exists i, upper_camel (c_plural c) i.
  Hypothesis Hcname : forall n, In n (structure_names g) -> exists i, upper_camel n i.

  Lemma ucamel_right n i : upper_camel n i -> ucamel n = i.
  Proof. intros H. unfold ucamel, M_GoGen.field. apply ucamel_upper in H. now rewrite H. Qed.
  Lemma camel_right n i : lower_camel n i -> camel n = i.
  Proof. intros H. unfold camel. apply camel_lower in H. now rewrite H. Qed.
  Lemma ucamel_name n : In n (structure_names g) -> capital_name (ucamel n).
  Proof. intros H. destruct (Hcname n H) as (i & Hi). rewrite (ucamel_right _ _ Hi). now apply (upper_initial n); [|apply Hname]. Qed.
  Lemma ucamel_plural c : In c (g_classes g) -> capital_name (ucamel (c_plural c)).
  Proof. intros H. destruct (Hcplural c H) as (i & Hi). rewrite (ucamel_right _ _ Hi). now apply (upper_initial (c_plural c)); [|apply Hplural]. Qed.
  Lemma camel_name n : In n (structure_names g) -> small_name (camel n).
  Proof. intros H. destruct (Hcname n H) as (i & Hi). apply camel_upper in Hi as (j & Hj). rewrite (camel_right _ _ Hj). now apply (lower_initial n); [|apply Hname]. Qed.
  Lemma camel_plural c : In c (g_classes g) -> small_name (camel (c_plural c)).
  Proof. intros H. destruct (Hcplural c H) as (i & Hi). apply camel_upper in Hi as (j & Hj). rewrite (camel_right _ _ Hj). now apply (lower_initial (c_plural c)); [|apply Hplural]. Qed.

  (** The names of the functions' own variables which are not numbered *)
  Definition go_local (x : str) : Prop :=
    In x own_locals \/
    (exists c r, In c (g_classes g) /\ In r roles /\ x = camel (c_plural c) ++ s_ r) \/
    (exists c, In c (g_classes g) /\ (x = s_ "target" ++ ucamel (c_plural c) \/ x = camel (c_name c) ++ s_ "Instance")).

  Lemma class_structure c : In c (g_classes g) -> In (c_name c) (structure_names g).
  Proof. intros H. right. apply in_or_app. left. now apply in_map. Qed.
  Lemma embed_structure e : In e (g_embeds g) -> In (e_name e) (structure_names g).
  Proof. intros H. right. apply in_or_app. right. now apply in_map. Qed.

  Lemma local_small x : go_local x -> small_name x.
  Proof.
    intros [H|[(c & r & Hc & _ & ->)|(c & Hc & [->| ->])]].
    - cbn in H. repeat (destruct H as [<-|H]; [eexists _, _; split; reflexivity|]). destruct H.
    - now apply small_app, camel_plural.
    - eexists _, _; split; reflexivity.
    - apply small_app, camel_name. now apply class_structure.
  Qed.
  Lemma local_far x : go_local x -> ~ go_far x.
  Proof.
    intros H [F|[F|(k & ->)]].
    - revert F. apply small_not_capital. now apply local_small.
    - destruct H as [H|[(c & r & Hc & Hr & ->)|(c & Hc & [->| ->])]].
      + assert (K : forallb (fun y => negb (mem y own_locals)) (go_predeclared ++ go_packages ++ map s_ ["durationFromString"; "durationToString"]%string) = true) by (vm_compute; reflexivity).
        rewrite forallb_forall in K. apply K in F. apply mem_In in H. now rewrite H in F.
      + assert (K : forallb (fun y => negb (existsb (fun r => ends (s_ r) y) roles)) (go_predeclared ++ go_packages ++ map s_ ["durationFromString"; "durationToString"]%string) = true) by (vm_compute; reflexivity).
        rewrite forallb_forall in K. apply K in F. apply negb_true_iff in F.
        assert (E : existsb (fun q => ends (s_ q) (camel (c_plural c) ++ s_ r)) roles = true) by (apply existsb_exists; exists r; split; [exact Hr|apply ends_app]). congruence.
      + assert (K : forallb (fun y => negb (begins (s_ "target") y)) (go_predeclared ++ go_packages ++ map s_ ["durationFromString"; "durationToString"]%string) = true) by (vm_compute; reflexivity).
        rewrite forallb_forall in K. apply K in F. now rewrite begins_app in F.
      + assert (K : forallb (fun y => negb (ends (s_ "Instance") y)) (go_predeclared ++ go_packages ++ map s_ ["durationFromString"; "durationToString"]%string) = true) by (vm_compute; reflexivity).
        rewrite forallb_forall in K. apply K in F. now rewrite ends_app in F.
    - assert (L := last_digit (s_ "pattern") k). destruct H as [H|[(c & r & Hc & Hr & E)|(c & Hc & [E|E])]].
      + assert (K : forallb (fun y => negb (is_digit (last_char y))) own_locals = true) by (vm_compute; reflexivity).
        rewrite forallb_forall in K. apply K in H. now rewrite L in H.
      + rewrite E, role_last in L by exact Hr. cbn in Hr. repeat (destruct Hr as [<-|Hr]; [discriminate L|]). destruct Hr.
      + discriminate E.
      + rewrite E, last_char_app in L by discriminate. discriminate L.
  Qed.
  Lemma far_unnumbered x n : go_far x -> ~ gnum n x.
  Proof.
    intros [F|[F|(k & ->)]].
    - apply num_other. destruct F as (a & r & -> & Ha). intros H. unfold stem_of in H. cbn [takewhile] in H.
      assert (Hd : is_digit a = false) by (unfold is_digit, is_upper in *; rewrite andb_true_iff in Ha; rewrite andb_false_iff, !N.leb_le, !N.leb_gt in *; lia).
      rewrite Hd in H. cbn [negb] in H. remember (a :: takewhile (fun c => negb (is_digit c)) r) as y eqn:Ey.
      assert (K : forallb (fun y => match y with c :: _ => is_lower c | [] => false end) go_stems = true) by (vm_compute; reflexivity).
      rewrite forallb_forall in K. apply K in H. rewrite Ey in H. unfold is_upper, is_lower in *. rewrite andb_true_iff, !N.leb_le in *. lia.
    - apply num_other. intros H.
      assert (K : forallb (fun y => negb (mem (stem_of y) go_stems)) (go_predeclared ++ go_packages ++ map s_ ["durationFromString"; "durationToString"]%string) = true) by (vm_compute; reflexivity).
      rewrite forallb_forall in K. apply K in F. apply mem_In in H. now rewrite H in F.
    - apply num_other. rewrite stem_of_auto by reflexivity. vm_compute. intuition discriminate.
  Qed.
  Lemma local_unnumbered x n : In x own_locals \/ (exists c r, In c (g_classes g) /\ In r roles /\ x = camel (c_plural c) ++ s_ r) -> ~ gnum n x.
  Proof.
    intros H. apply num_no_digit. destruct H as [H|(c & r & Hc & Hr & ->)].
    - assert (K : forallb (fun y => negb (is_digit (last_char y))) own_locals = true) by (vm_compute; reflexivity).
      rewrite forallb_forall in K. apply K in H. now apply negb_true_iff in H.
    - rewrite role_last by exact Hr. cbn in Hr. repeat (destruct Hr as [<-|Hr]; [reflexivity|]). destruct Hr.
  Qed.
  Lemma local_unreserved x : go_local x -> ~ In x go_keywords.
  Proof.
    intros H F. destruct H as [H|[(c & r & Hc & Hr & ->)|(c & Hc & [->| ->])]].
    - assert (K : forallb (fun y => negb (mem y go_keywords)) own_locals = true) by (vm_compute; reflexivity).
      rewrite forallb_forall in K. apply K in H. apply mem_In in F. now rewrite F in H.
    - assert (K : forallb (fun y => negb (existsb (fun r => ends (s_ r) y) roles)) go_keywords = true) by (vm_compute; reflexivity).
      rewrite forallb_forall in K. apply K in F. apply negb_true_iff in F.
      assert (E : existsb (fun q => ends (s_ q) (camel (c_plural c) ++ s_ r)) roles = true) by (apply existsb_exists; exists r; split; [exact Hr|apply ends_app]). congruence.
    - assert (K : forallb (fun y => negb (begins (s_ "target") y)) go_keywords = true) by (vm_compute; reflexivity).
      rewrite forallb_forall in K. apply K in F. now rewrite begins_app in F.
    - assert (K : forallb (fun y => negb (ends (s_ "Instance") y)) go_keywords = true) by (vm_compute; reflexivity).
      rewrite forallb_forall in K. apply K in F. now rewrite ends_app in F.
  Qed.

  (** ** What the package declares *)
  Hypothesis Htypes : NoDup (map ucamel (structure_names g)).
  Hypothesis Hreserved : forall n i, In n (structure_names g) -> upper_camel n i -> ~ go_reserved upper_camel g i.

  Lemma pattern_names x : In x (match compile_regexes (enumerate_patterns g) with Some decls => map fst decls | None => [] end) ->
    exists k, x = s_ "pattern" ++ dec_nat k.
  Proof.
    destruct (enumerate_spec g) as (Hk & Hv & Hin). destruct (compile_spec _ Hk Hv) as (decls & -> & HP). intros H.
    apply (Permutation.Permutation_in _ (Permutation.Permutation_map fst HP)) in H. rewrite map_map in H. apply in_map_iff in H as (e & <- & _). now exists (snd e).
  Qed.

  Lemma type_names_structure x : In x (go_type_names g) <-> In x (map ucamel (structure_names g)).
  Proof.
    unfold go_type_names, structure_names. rewrite !in_map_iff. split; intros (n & <- & H); exists n; (split; [reflexivity|]); revert H; cbn [In];
      rewrite !in_app_iff; cbn [In]; tauto.
  Qed.
  Lemma type_names_NoDup : NoDup (go_type_names g).
  Proof.
    apply (Permutation.Permutation_NoDup (l := map ucamel (structure_names g))); [|exact Htypes]. apply Permutation.Permutation_map.
    unfold structure_names. rewrite app_assoc. change (g_name g :: ?l) with ([g_name g] ++ l).
    rewrite Permutation.Permutation_app_comm. apply Permutation.Permutation_app; [|reflexivity]. apply Permutation.Permutation_app_comm.
  Qed.
  Definition composite_names : list str := map c_name (g_classes g) ++ map e_name (g_embeds g) ++ [g_name g].
  Lemma composite_structure n : In n composite_names <-> In n (structure_names g).
  Proof. unfold composite_names, structure_names. cbn [In]. rewrite !in_app_iff. cbn [In]. tauto. Qed.
  Lemma composite_ucamel_NoDup : NoDup (map ucamel composite_names).
  Proof.
    apply (Permutation.Permutation_NoDup (l := map ucamel (structure_names g))); [|exact Htypes]. apply Permutation.Permutation_map.
    unfold structure_names, composite_names. rewrite app_assoc. change (g_name g :: ?l) with ([g_name g] ++ l). apply Permutation.Permutation_app_comm.
  Qed.
  Lemma suffix_NoDup (l : list str) x : NoDup (map ucamel l) -> NoDup (map (fun n => ucamel n ++ x) l).
  Proof.
    intros H. rewrite <- (map_map ucamel (fun n => n ++ x)). apply FinFun.Injective_map_NoDup; [|exact H]. intros a b E. now apply app_inv_tail in E.
  Qed.

  (** The names declared by the package: with a capital first letter or one of a few others *)
  Lemma declared_names x : In x (go_declared g) ->
    capital_name x \/ x = s_ "durationFromString" \/ x = s_ "durationToString" \/ exists k, x = s_ "pattern" ++ dec_nat k.
  Proof.
    unfold go_declared, go_from_declared, go_to_declared. rewrite !in_app_iff. intros [H|[H|[[H|[H|H]]|[H|H]]]].
    - left. apply type_names_structure in H. apply in_map_iff in H as (n & <- & H). now apply ucamel_name.
    - left. cbn in H. destruct H as [<-|[<-|[<-|[]]]]; eexists _, _; split; reflexivity.
    - destruct (graph_needs g (KPrim PDuration)); cbn in H; [|destruct H]. destruct H as [<-|[]]. tauto.
    - right. right. right. now apply pattern_names.
    - left. apply in_map_iff in H as (n & <- & H). apply capital_app, ucamel_name. now apply composite_structure.
    - destruct (graph_needs g (KPrim PDuration)); cbn in H; [|destruct H]. destruct H as [<-|[]]. tauto.
    - left. apply in_map_iff in H as (n & <- & H). apply capital_app, ucamel_name. now apply composite_structure.
  Qed.

  Lemma declared_fresh x imported : incl imported go_packages -> In x (go_declared g) -> ~ In x (go_keywords ++ go_predeclared ++ imported).
  Proof.
    intros Hi H Hin. assert (Hin' : In x (go_keywords ++ go_predeclared ++ go_packages)) by (rewrite !in_app_iff in *; intuition). clear Hin.
    apply declared_names in H as [H|H].
    - assert (K : forallb (fun y => match y with c :: _ => negb (is_upper c) | [] => false end) (go_keywords ++ go_predeclared ++ go_packages) = true) by (vm_compute; reflexivity).
      rewrite forallb_forall in K. apply K in Hin'. destruct H as (a & r & -> & Ha). now rewrite Ha in Hin'.
    - destruct H as [->|[->|(k & ->)]]; [apply mem_In in Hin'; vm_compute in Hin'; discriminate..|].
      assert (K : forallb (fun y => negb (begins (s_ "pattern") y)) (go_keywords ++ go_predeclared ++ go_packages) = true) by (vm_compute; reflexivity).
      rewrite forallb_forall in K. apply K in Hin'. now rewrite begins_app in Hin'.
  Qed.
  Lemma imported_fresh x imported : incl imported go_packages -> In x imported -> ~ In x go_predeclared.
  Proof.
    intros Hi H F. apply Hi in H. apply mem_In in F. cbn in H. destruct H as [<-|[<-|[<-|[<-|[<-|[<-|[]]]]]]]; vm_compute in F; discriminate.
  Qed.

  Lemma go_declared_NoDup : NoDup (go_declared g).
  Proof.
    assert (Hfrom : NoDup (map go_from composite_names)) by (apply suffix_NoDup, composite_ucamel_NoDup).
    assert (Hto : NoDup (map go_to composite_names)) by (apply suffix_NoDup, composite_ucamel_NoDup).
    assert (Hcap : forall f x, (forall n, In n (structure_names g) -> capital_name (f n)) -> In x (map f composite_names) -> capital_name x).
    { intros f x Hf H. apply in_map_iff in H as (n & <- & H). apply Hf. now apply composite_structure. }
    assert (Hcf : forall x, In x (map go_from composite_names) -> capital_name x) by (intros x; apply Hcap; intros n Hn; now apply capital_app, ucamel_name).
    assert (Hct : forall x, In x (map go_to composite_names) -> capital_name x) by (intros x; apply Hcap; intros n Hn; now apply capital_app, ucamel_name).
    assert (Hsmall : forall x, x = s_ "durationFromString" \/ x = s_ "durationToString" \/ (exists k, x = s_ "pattern" ++ dec_nat k) -> ~ capital_name x).
    { intros x H. apply small_not_capital. destruct H as [->|[->|(k & ->)]]; eexists _, _; split; reflexivity. }
    assert (Hdur : forall b (x y : str), In y (if b : bool then [x] else []) -> y = x) by (intros [] x y; cbn; [intros [<-|[]]; reflexivity|tauto]).
    unfold go_declared. apply NoDup_app_intro; [exact type_names_NoDup| |].
    - apply NoDup_app_intro; [repeat constructor; vm_compute; intuition discriminate| |].
      + apply NoDup_app_intro.
        * unfold go_from_declared. fold composite_names. apply NoDup_app_intro; [destruct (graph_needs g (KPrim PDuration)); repeat constructor; auto| |].
          -- apply NoDup_app_intro; [|exact Hfrom|].
             ++ destruct (C30_patterns_unique_complete g) as (decls & -> & Hd & _). exact Hd.
             ++ intros x H1 H2. apply pattern_names in H1. apply (Hsmall x); [tauto|now apply Hcf].
          -- intros x H1 H2. apply Hdur in H1 as ->. apply in_app_or in H2 as [H2|H2].
             ++ apply pattern_names in H2 as (k & H2). discriminate.
             ++ apply (Hsmall (s_ "durationFromString")); [tauto|now apply Hcf].
        * unfold go_to_declared. fold composite_names. apply NoDup_app_intro; [destruct (graph_needs g (KPrim PDuration)); repeat constructor; auto|exact Hto|].
          intros x H1 H2. apply Hdur in H1 as ->. apply (Hsmall (s_ "durationToString")); [tauto|now apply Hct].
        * unfold go_from_declared, go_to_declared. fold composite_names. intros x H1 H2.
          apply in_app_or in H2 as [H2|H2].
          -- apply Hdur in H2 as ->. apply in_app_or in H1 as [H1|H1]; [apply Hdur in H1; discriminate|]. apply in_app_or in H1 as [H1|H1].
             ++ apply pattern_names in H1 as (k & H1). discriminate.
             ++ apply (Hsmall (s_ "durationToString")); [tauto|now apply Hcf].
          -- apply in_app_or in H1 as [H1|H1]; [apply Hdur in H1 as ->; apply (Hsmall (s_ "durationFromString")); [tauto|now apply Hct]|].
             apply in_app_or in H1 as [H1|H1]; [apply pattern_names in H1; apply (Hsmall x); [tauto|now apply Hct]|].
             apply in_map_iff in H1 as (n & <- & _). apply in_map_iff in H2 as (m & E & _). unfold go_from, go_to in E.
             assert (E' := f_equal (ends (s_ "ToJSONable")) E). rewrite ends_app in E'. symmetry in E'. unfold ends in E'. rewrite rev_app_distr in E'. discriminate.
      + intros x H1 H2. assert (Hb : capital_name x /\ ends (s_ "JSONable") x = false /\ is_digit (last_char x) = false).
        { cbn in H1. destruct H1 as [<-|[<-|[<-|[]]]]; (split; [eexists _, _; split; reflexivity|split; reflexivity]). }
        destruct Hb as (B1 & B2 & B3). unfold go_from_declared, go_to_declared in H2. fold composite_names in H2. rewrite !in_app_iff in H2.
        destruct H2 as [[H2|[H2|H2]]|[H2|H2]].
        * apply Hdur in H2. apply (Hsmall x); tauto.
        * apply pattern_names in H2. apply (Hsmall x); tauto.
        * apply in_map_iff in H2 as (n & <- & _). unfold go_from in B2. change (s_ "FromJSONable") with (s_ "From" ++ s_ "JSONable") in B2. rewrite app_assoc, ends_app in B2. discriminate.
        * apply Hdur in H2. apply (Hsmall x); tauto.
        * apply in_map_iff in H2 as (n & <- & _). unfold go_to in B2. change (s_ "ToJSONable") with (s_ "To" ++ s_ "JSONable") in B2. rewrite app_assoc, ends_app in B2. discriminate.
    - intros x H1 H2. apply type_names_structure in H1. apply in_map_iff in H1 as (n & <- & Hn). destruct (Hcname n Hn) as (i & Hi).
      rewrite (ucamel_right _ _ Hi) in H2. apply (Hreserved n i Hn Hi). assert (Hci : capital_name i) by (apply (upper_initial n); [exact Hi|now apply Hname]).
      unfold go_from_declared, go_to_declared in H2. fold composite_names in H2. rewrite !in_app_iff in H2.
      destruct H2 as [H2|[[H2|[H2|H2]]|[H2|H2]]].
      + left. exact H2.
      + exfalso. apply Hdur in H2. apply (Hsmall i); tauto.
      + exfalso. apply pattern_names in H2. apply (Hsmall i); tauto.
      + right. apply in_map_iff in H2 as (m & <- & Hm). apply composite_structure in Hm. destruct (Hcname m Hm) as (j & Hj). exists m, j.
        unfold go_from. rewrite (ucamel_right _ _ Hj). auto.
      + exfalso. apply Hdur in H2. apply (Hsmall i); tauto.
      + right. apply in_map_iff in H2 as (m & <- & Hm). apply composite_structure in Hm. destruct (Hcname m Hm) as (j & Hj). exists m, j.
        unfold go_to. rewrite (ucamel_right _ _ Hj). auto.
  Qed.

  (** ** The functions of a source *)
  Hypothesis HNplural : NoDup (map camel (map c_plural (g_classes g))).
  Variable imported : list str.
  Hypothesis Himported : incl imported go_packages.
  Definition go_globals : list str := go_predeclared ++ imported ++ go_declared g.

  Lemma global_far x : In x go_globals -> go_far x.
  Proof.
    unfold go_globals. rewrite !in_app_iff. intros [H|[H|H]].
    - right. left. rewrite !in_app_iff. tauto.
    - right. left. apply Himported in H. rewrite !in_app_iff. tauto.
    - apply declared_names in H as [H|[->|[->|H]]]; [now left|right; left; apply mem_In; reflexivity..|right; right; exact H].
  Qed.
  Lemma predeclared_global x : mem (s_ x) go_predeclared = true -> In (s_ x) go_globals.
  Proof. intros H. apply mem_In in H. apply in_or_app. now left. Qed.
  Lemma imported_global x : In x imported -> In x go_globals.
  Proof. intros H. apply in_or_app. right. apply in_or_app. now left. Qed.
  Lemma declared_global x : In x (go_declared g) -> In x go_globals.
  Proof. intros H. apply in_or_app. right. apply in_or_app. now right. Qed.
  Lemma type_global n : In n (structure_names g) -> In (ucamel n) go_globals.
  Proof. intros H. apply declared_global. unfold go_declared. apply in_or_app. left. apply type_names_structure. now apply in_map. Qed.
  Lemma from_global n : In n (structure_names g) -> In (go_from n) go_globals.
  Proof.
    intros H. apply declared_global. unfold go_declared, go_from_declared. fold composite_names. rewrite !in_app_iff. right. right. left. right. right.
    apply in_map. now apply composite_structure.
  Qed.
  Lemma to_global n : In n (structure_names g) -> In (go_to n) go_globals.
  Proof.
    intros H. apply declared_global. unfold go_declared, go_to_declared. fold composite_names. rewrite !in_app_iff. right. right. right. right.
    apply in_map. now apply composite_structure.
  Qed.

  Notation meaning := (meaning go_globals).
  Notation scoped := (scoped go_keywords go_globals).
  Notation right := (P_BlockScope.right go_globals).
  Notation gready := (ready go_globals go_stems).
  Notation gfree := (free go_stems).

  (** A frame with the variables of the function *)
  Definition frame_ok (D : list (thing * str)) : Prop :=
    NoDup (map snd D) /\
    forall y, In y (map snd D) -> In y own_locals \/ (exists c r, In c (g_classes g) /\ In r roles /\ y = camel (c_plural c) ++ s_ r).
  Lemma frame_ok_local D y : frame_ok D -> In y (map snd D) -> go_local y.
  Proof. intros [_ H] Hy. destruct (H y Hy) as [H'|H']; [now left|right; now left]. Qed.
  Lemma frame_ok_prefix D D' : frame_ok (D ++ D') -> frame_ok D.
  Proof.
    intros [H1 H2]. rewrite map_app in *. split; [now apply NoDup_app_parts in H1|]. intros y Hy. apply H2. apply in_or_app. now left.
  Qed.
  Lemma outer_ready D n x : frame_ok D -> In x go_globals -> gready n [frame_of D] (outer x).
  Proof.
    intros HD Hx. apply ready_mention; [|now apply far_unnumbered, global_far]. apply frame_outer; [|exact Hx].
    intros H. apply (local_far x); [now apply (frame_ok_local D)|now apply global_far].
  Qed.
  Lemma local_ready D n t x : frame_ok D -> In (t, x) D -> gready n [frame_of D] (Mention t x).
  Proof.
    intros HD Hx. apply ready_mention; [now apply frame_meaning; [apply HD|]|]. apply (local_unnumbered x n). apply HD. apply in_map_iff. now exists (t, x).
  Qed.
  Lemma store_right D t x : frame_ok D -> In (t, x) D -> right [frame_of D] (Store t x).
  Proof. intros HD Hx. exists t, x. split; [now right|]. now apply frame_meaning; [apply HD|]. Qed.
  Lemma frame_free D n : frame_ok D -> gfree n [frame_of D].
  Proof. intros HD x Hx H. apply (proj1 (frame_in D x)) in H. apply (local_unnumbered x n); [now apply HD|exact Hx]. Qed.
  Lemma frame_declares D D0 l : frame_ok (D0 ++ D) -> scoped [frame_of (D0 ++ D)] l -> scoped [frame_of D0] (declares D ++ l).
  Proof.
    intros HD. apply scoped_declares; [apply HD|]. intros q Hq. apply local_unreserved. apply (frame_ok_local _ _ HD).
    apply in_map. apply in_or_app. now right.
  Qed.

  (** What a list of the code mentions besides the registries *)
  Definition known (D : list (thing * str)) (c : code) : Prop :=
    (exists x, c = outer x /\ In x go_globals) \/ (exists t x, c = Mention t x /\ In (t, x) D).
  Lemma known_ready D n l : frame_ok D -> Forall (known D) l -> Forall (gready n [frame_of D]) l.
  Proof. intros HD. apply Forall_impl. intros c [(x & -> & H)|(t & x & -> & H)]; [now apply outer_ready|now apply local_ready]. Qed.
  Lemma known_right D l : frame_ok D -> Forall (known D) l -> Forall (right [frame_of D]) l.
  Proof. intros HD H. apply (ready_right go_globals go_stems 0). now apply known_ready. Qed.

  Definition kind_packages (t : ty) : list str :=
    match t with
    | TInt _ => [pkg_math]
    | TDate _ | TTime _ | TDatetime _ | TTimeZone | TDuration => [pkg_time]
    | TArray _ _ _ => [pkg_strconv]
    | _ => []
    end.

  Ltac pre := left; eexists; split; [reflexivity|apply predeclared_global; reflexivity].

  Section Support.
    Hypothesis Hstrings : In pkg_strings imported.
    Hypothesis Hfmt : In pkg_fmt imported.
    Hypothesis Hpackages : forall t ref x, value_type g t ref -> In x (kind_packages t) -> In x imported.
    Variable registry : cls -> list code.
    Variable D : list (thing * str).
    Hypothesis Herrors : In (Own "errors", s_ "errors") D.

    Lemma pattern_known p : pattern_of g p -> Forall (known D) (go_pattern g p).
    Proof.
      intros H. unfold go_pattern. destruct (C30_patterns_unique_complete g) as (decls & Ed & _ & _ & _ & Hv).
      destruct (Hv p H) as (x & -> & Hx). constructor; [|constructor]. left. exists x. split; [reflexivity|]. apply declared_global.
      unfold go_declared, go_from_declared. rewrite Ed, !in_app_iff. right. right. left. right. left. apply in_map_iff. now exists (x, p).
    Qed.
    Lemma base_known : Forall (known D) go_base.
    Proof.
      unfold go_base. repeat first [apply Forall_nil | apply Forall_cons; [first [pre | left; eexists; split; [reflexivity|apply imported_global; assumption] | right; eexists _, _; split; [reflexivity|exact Herrors]]|]].
    Qed.
    Lemma type_known t : ty_resolved g t -> (forall x, In x (type_repr_uses t) -> In x imported) -> Forall (known D) (go_type t).
    Proof.
      induction t; cbn [go_type type_repr_uses ty_resolved]; intros HT HU;
        try (repeat first [apply Forall_nil | apply Forall_cons; [first [pre | left; eexists; split; [reflexivity|apply imported_global, HU; now left]]|]]).
      - now apply IHt.
      - now apply IHt.
      - constructor; [|constructor]. left. eexists. split; [reflexivity|]. apply type_global. destruct (find_class g name) as [c|] eqn:E; [|congruence].
        apply find_some in E as [Hc E]. apply str_eqb_eq in E as <-. now apply class_structure.
      - constructor; [|constructor]. left. eexists. split; [reflexivity|]. apply type_global. destruct (find_embed g name) as [e|] eqn:E; [|congruence].
        apply find_some in E as [He E]. apply str_eqb_eq in E as <-. now apply embed_structure.
    Qed.
    Lemma repr_packages t ref : value_type g t ref -> forall x, In x (type_repr_uses t) -> In x imported.
    Proof.
      intros [r ps p n Hc Hp Hin _] x Hx. apply type_repr_uses_spec in Hx as (-> & m & u & Hu & Ht).
      assert (Hin' : inside (p_type p) (n + m) u).
      { clear -Hin Hu. induction Hin; cbn; [exact Hu|constructor; auto..]. }
      apply (Hpackages u (r ++ s_ "/" ++ p_name p ++ levels (n + m))); [now apply (value_type_at g u _ r ps p (n + m))|]. destruct u; cbn in Ht |- *; try discriminate; auto.
    Qed.
    Lemma support_known t : forall ref,
      value_type g t ref -> ty_resolved g t ->
      (forall n c, In n (classes_in t) -> find_class g n = Some c -> Forall (known D) (registry c)) ->
      (forall n c, In n (embeds_in t) -> In c (embed_references g n) -> Forall (known D) (registry c)) ->
      Forall (known D) (go_type t ++ go_support g registry t).
    Proof.
      assert (Step : forall t u ref, value_type g t ref -> (exists mn mx, t = TArray u mn mx) \/ t = TMap u -> exists ref', value_type g u ref').
      { intros t' u ref [r ps p n Hc Hp Hin _] Hu. exists (r ++ s_ "/" ++ p_name p ++ levels (S n)). apply (value_type_at g u _ r ps p (S n)); [exact Hc|exact Hp| |reflexivity].
        now apply (inside_step _ _ _ Hin). }
      intros ref HV HT HC HE. apply Forall_app. split; [apply type_known; [exact HT|exact (repr_packages _ _ HV)]|].
      revert ref HV HT HC HE. induction t; intros ref HV HT HC HE; cbn [go_support]; apply Forall_app; (split; [exact base_known|]);
        try (repeat first [apply Forall_nil | apply Forall_cons; [left; eexists; split; [reflexivity|apply imported_global, (Hpackages _ _ _ HV); now left]|]]).
      - destruct pattern as [p|]; [|constructor]. apply pattern_known. now apply pattern_of_string with ref.
      - destruct pattern as [p|]; [|constructor]. apply pattern_known. now apply pattern_of_path with ref.
      - constructor; [|constructor]. left. eexists. split; [reflexivity|]. apply declared_global.
        assert (E : graph_needs g (KPrim PDuration) = true) by (apply graph_needs_spec; try discriminate; [exact HR|exists TDuration, ref; now split]).
        unfold go_declared, go_from_declared. rewrite E, !in_app_iff. right. right. left. left. now left.
      - destruct (Step _ t _ HV ltac:(left; eauto)) as (ref' & HV'). apply Forall_app. split; [apply type_known; [exact HT|exact (repr_packages _ _ HV')]|].
        now apply (IHt ref').
      - destruct (Step _ t _ HV ltac:(right; eauto)) as (ref' & HV'). apply Forall_app. split; [apply type_known; [exact HT|exact (repr_packages _ _ HV')]|].
        now apply (IHt ref').
      - cbn in HT. destruct (find_class g name) as [c|] eqn:E; [|congruence]. apply (HC name); [now left|exact E].
      - cbn in HT. destruct (find_embed g name) as [e|] eqn:E; [|congruence]. apply find_some in E as [He E]. apply str_eqb_eq in E as <-.
        constructor; [left; eexists; split; [reflexivity|]; apply from_global; now apply embed_structure|].
        apply Forall_flat_map. apply Forall_forall. intros c Hc. apply (HE (e_name e)); [now left|exact Hc].
    Qed.
  End Support.

  Lemma plural_eq c d : In c (g_classes g) -> In d (g_classes g) -> camel (c_plural c) = camel (c_plural d) -> c = d.
  Proof.
    intros Hc Hd E. assert (H : NoDup (map (fun c => camel (c_plural c)) (g_classes g))) by (rewrite <- map_map; exact HNplural). revert H Hc Hd E.
    generalize (g_classes g). clear. intros l. induction l as [|a l IH]; [contradiction|]. cbn [map]. intros H Hc Hd E.
    inversion H as [|? ? H1 H2]; subst. destruct Hc as [<-|Hc], Hd as [<-|Hd]; [reflexivity| | |now apply IH]; exfalso; apply H1.
    - rewrite E. apply (in_map (fun c => camel (c_plural c))). exact Hd.
    - rewrite <- E. apply (in_map (fun c => camel (c_plural c))). exact Hc.
  Qed.
  (** The names made for classes, by the roles *)
  Lemma roles_NoDup (rs : list string) l : incl rs roles -> NoDup rs -> incl l (g_classes g) -> NoDup l ->
    NoDup (flat_map (fun c => map (fun r => camel (c_plural c) ++ s_ r) rs) l).
  Proof.
    intros Hrs Hnd Hl HL. induction HL as [|c l Hc _ IH]; cbn [flat_map]; [constructor|].
    assert (Hl' : incl l (g_classes g)) by (intros d Hd; apply Hl; now right). apply NoDup_app_intro; [|now apply IH|].
    - clear -Hrs Hnd. induction Hnd as [|r rs Hr _ IH]; cbn [map]; constructor.
      + intros H. apply in_map_iff in H as (q & E & Hq). apply role_eq in E as [<- _]; [contradiction|apply Hrs; now right|apply Hrs; now left].
      + apply IH. intros q Hq. apply Hrs. now right.
    - intros x H1 H2. apply in_map_iff in H1 as (r & <- & Hr). apply in_flat_map in H2 as (d & Hd & H2). apply in_map_iff in H2 as (q & E & Hq).
      apply role_eq in E as [_ E]; [|auto..]. apply plural_eq in E as <-; [contradiction|now apply Hl'|apply Hl; now left].
  Qed.
  Lemma own_not_role x c r : In x own_locals -> In r roles -> x <> camel (c_plural c) ++ s_ r.
  Proof.
    intros H Hr ->. assert (K : forallb (fun y => negb (existsb (fun r => ends (s_ r) y) roles)) own_locals = true) by (vm_compute; reflexivity).
    rewrite forallb_forall in K. apply K in H. apply negb_true_iff in H.
    assert (E : existsb (fun q => ends (s_ q) (camel (c_plural c) ++ s_ r)) roles = true) by (apply existsb_exists; exists r; split; [exact Hr|apply ends_app]). congruence.
  Qed.

  (** A frame with the function's own variables, before and after those for classes *)
  Lemma frame_ok_intro (before after : list string) (F : cls -> list (thing * str)) rs l :
    NoDup (map s_ (before ++ after)) -> incl (map s_ (before ++ after)) own_locals ->
    incl rs roles -> NoDup rs -> incl l (g_classes g) -> NoDup l ->
    (forall c, map snd (F c) = map (fun r => camel (c_plural c) ++ s_ r) rs) ->
    frame_ok (map (fun x => (Own x, s_ x)) before ++ flat_map F l ++ map (fun x => (Own x, s_ x)) after).
  Proof.
    intros H1 H2 H3 H4 H5 H6 H7.
    assert (EF : map snd (flat_map F l) = flat_map (fun c => map (fun r => camel (c_plural c) ++ s_ r) rs) l).
    { clear -H7. induction l as [|c l IH]; [reflexivity|]. cbn [flat_map]. now rewrite map_app, H7, IH. }
    assert (EO : forall xs : list string, map snd (map (fun x => (Own x, s_ x)) xs) = map s_ xs) by (intros xs; rewrite map_map; reflexivity).
    unfold frame_ok. rewrite !map_app, !EO, EF. rewrite map_app in H1, H2.
    assert (HF : forall x, In x (flat_map (fun c => map (fun r => camel (c_plural c) ++ s_ r) rs) l) ->
                  exists c r, In c (g_classes g) /\ In r roles /\ x = camel (c_plural c) ++ s_ r).
    { intros x Hx. apply in_flat_map in Hx as (c & Hc & Hx). apply in_map_iff in Hx as (r & <- & Hr). exists c, r. auto. }
    assert (Hdisj : forall x, In x (map s_ before ++ map s_ after) -> ~ In x (flat_map (fun c => map (fun r => camel (c_plural c) ++ s_ r) rs) l)).
    { intros x Hx Hx'. apply HF in Hx' as (c & r & Hc & Hr & E). revert E. apply own_not_role; [now apply H2|exact Hr]. }
    split.
    - destruct (NoDup_app_parts _ _ H1) as (N1 & N2 & N3). apply NoDup_app_intro; [exact N1| |].
      + apply NoDup_app_intro; [now apply roles_NoDup|exact N2|]. intros x Hx Hx'. apply (Hdisj x); [apply in_or_app; now right|exact Hx].
      + intros x Hx Hx'. apply in_app_or in Hx' as [Hx'|Hx']; [apply (Hdisj x); [apply in_or_app; now left|exact Hx']|].
        exact (N3 x Hx Hx').
    - intros y Hy. rewrite !in_app_iff in Hy. destruct Hy as [Hy|[Hy|Hy]]; [left; apply H2; apply in_or_app; now left|right; now apply HF|left; apply H2; apply in_or_app; now right].
  Qed.

  Ltac in_frame := repeat first [assumption | apply in_eq | match goal with |- In _ (_ :: _) => apply in_cons end
    | match goal with |- In _ (_ ++ _) => apply in_or_app; first [left; solve [in_frame] | right; solve [in_frame]] end].
  Ltac one_known := first
    [ pre
    | left; eexists; split; [reflexivity|first [apply imported_global; assumption | assumption]]
    | right; eexists _, _; split; [reflexivity|solve [assumption | repeat first [apply in_eq | apply in_cons]]] ].
  Ltac all_known := repeat first [apply Forall_nil | apply Forall_cons; [one_known|]].

  Lemma composite_value_type r ps p : composite g r ps -> In p ps -> exists ref, value_type g (p_type p) ref.
  Proof. intros Hc Hp. eexists. apply (value_type_at g _ _ r ps p 0); [exact Hc|exact Hp|constructor|reflexivity]. Qed.
  Lemma composite_resolved r ps p : composite g r ps -> In p ps -> ty_resolved g (p_type p).
  Proof.
    intros Hc Hp. apply (HR ps); [|exact Hp]. destruct Hc as [c H|e H|]; [now apply in_composites_class|now apply in_composites_embed|apply in_composites_graph].
  Qed.

  (** Under blocks which declare the names [inner] *)
  Definition known_under (D : list (thing * str)) (inner : list string) (c : code) : Prop :=
    (exists x, c = outer x /\ In x go_globals) \/
    (exists t x, (c = Mention t x \/ c = Store t x) /\ In (t, x) D /\ ~ In x (map s_ inner)).
  Lemma under_right D inner G c : frame_ok D -> incl (map s_ inner) own_locals ->
    (forall f x, In f G -> In x (keys f) -> In x (map s_ inner)) -> known_under D inner c -> right (G ++ [frame_of D]) c.
  Proof.
    intros HD Hi HG Hc.
    assert (HM : forall x, ~ In x (map s_ inner) -> meaning x (G ++ [frame_of D]) = meaning x [frame_of D]).
    { intros x Hx. clear Hc. induction G as [|f G IH]; [reflexivity|]. cbn [app S_Scope.meaning].
      rewrite IH by (intros f' y Hf Hy; apply (HG f' y); [now right|exact Hy]).
      destruct (lookup x f) as [t|] eqn:E; [|reflexivity]. exfalso. apply Hx. apply (HG f x); [now left|]. apply lookup_In in E. apply in_map_iff. now exists (x, t). }
    destruct Hc as [(x & -> & Hx)|(t & x & Hc & Hx & Hn)].
    - exists (Outer x), x. split; [now left|]. rewrite HM; [|intros Hin; apply (local_far x); [left; now apply Hi|now apply global_far]].
      apply frame_outer; [|exact Hx]. intros Hin. apply (local_far x); [now apply (frame_ok_local D)|now apply global_far].
    - exists t, x. split; [exact Hc|]. rewrite HM by exact Hn. now apply frame_meaning; [apply HD|].
  Qed.
  Lemma frame_declare D t x l : frame_ok (D ++ [(t, x)]) -> scoped [frame_of (D ++ [(t, x)])] l -> scoped [frame_of D] (Declare t x :: l).
  Proof. intros HD Hl. exact (frame_declares [(t, x)] D l HD Hl). Qed.

  (** *** The parser of a class or an embeddable structure *)
  Section From.
    Hypothesis Hstrings : In pkg_strings imported.
    Hypothesis Hfmt : In pkg_fmt imported.
    Hypothesis Hpackages : forall t ref x, value_type g t ref -> In x (kind_packages t) -> In x imported.

    Lemma properties_known registry D r ps : composite g r ps ->
      In (Own "errors", s_ "errors") D -> In (Own "ref", s_ "ref") D -> In (Own "target", s_ "target") D ->
      (ps <> [] -> In (Own "cast", s_ "cast") D) ->
      (forall p n c, In p ps -> In n (classes_in (p_type p)) -> find_class g n = Some c -> Forall (known D) (registry c)) ->
      (forall p n c, In p ps -> In n (embeds_in (p_type p)) -> In c (embed_references g n) -> Forall (known D) (registry c)) ->
      Forall (known D) (own "errors" :: flat_map (property_needs g registry) ps).
    Proof.
      intros Hc He Hr Ht Hcast HC HE. constructor; [one_known|]. apply Forall_flat_map, Forall_forall. intros p Hp.
      assert (Hcast' : In (Own "cast", s_ "cast") D) by (apply Hcast; intros ->; destruct Hp). unfold property_needs. cbn [app].
      do 4 (constructor; [one_known|]). destruct (composite_value_type _ _ _ Hc Hp) as (ref & HV).
      apply (support_known Hstrings Hfmt Hpackages registry D He _ ref HV); [now apply (composite_resolved r ps)|eauto|eauto].
    Qed.

    Lemma go_parse_composite_right is_class k r ps : nth_error (composites g) k = Some ps -> k < root g -> composite g r ps ->
      block_right go_keywords go_globals (go_parse_composite g is_class (references_of g k) ps).
    Proof.
      intros Hk Hroot Hc. destruct (references_of_spec g HR HN k ps Hk Hroot) as (HI & HD & HC & HE).
      set (refs := references_of g k) in *.
      set (before := "value"%string :: if is_class then ["id"%string] else []).
      set (new := (match ps with [] => [] | _ => ["cast"%string] end) ++ ["ok"%string]).
      set (params := map (fun x => (Own x, s_ x)) before ++ flat_map (fun c => [go_registry_param c]) refs ++ map (fun x => (Own x, s_ x)) ["ref"; "target"; "errors"]%string).
      set (D1 := map (fun x => (Own x, s_ x)) new).
      assert (Hnd : NoDup (map s_ (before ++ ["ref"; "target"; "errors"]%string ++ new)) /\ incl (map s_ (before ++ ["ref"; "target"; "errors"]%string ++ new)) own_locals).
      { unfold before, new. destruct is_class, ps; cbn [app]; (split; [repeat constructor; vm_compute; intuition discriminate|intros x Hx; cbn in Hx |- *; tauto]). }
      assert (Hok : frame_ok (params ++ D1)).
      { unfold params, D1. rewrite <- !app_assoc, <- map_app. apply (frame_ok_intro _ _ _ ["Registry"%string]); [apply Hnd|apply Hnd| | |exact HI|exact HD|reflexivity].
        - intros q [<-|[]]. now left.
        - repeat constructor; auto. }
      assert (Hok0 : frame_ok params) by (now apply frame_ok_prefix in Hok).
      unfold block_right. replace (map _ (fn_params _)) with (declares params).
      2:{ cbn [go_parse_composite fn_params]. unfold declares, params, before. replace (flat_map (fun c => [go_registry_param c]) refs) with (map go_registry_param refs) by (clear; induction refs as [|c l IH]; [reflexivity|]; cbn [map flat_map app]; now rewrite IH).
      destruct is_class; reflexivity. }
      apply (frame_declares params []); [exact Hok0|]. cbn [app].
      assert (Hp : forall x, In x before \/ In x ["ref"; "target"; "errors"]%string -> In (Own x, s_ x) params).
      { intros x Hx. unfold params. rewrite !in_app_iff. destruct Hx as [Hx|Hx]; [left|right; right]; now apply (in_map (fun x => (Own x, s_ x))). }
      assert (Hv := Hp "value"%string ltac:(left; now left)). assert (Hr := Hp "ref"%string ltac:(right; now left)).
      assert (Ht := Hp "target"%string ltac:(right; right; now left)). assert (He := Hp "errors"%string ltac:(right; right; right; now left)).
      cbn [go_parse_composite fn_body]. apply scoped_right; [apply known_right; [exact Hok0|]; unfold go_preconditions; all_known|].
      apply scoped_right; [apply known_right; [exact Hok0|]; all_known|].
      match goal with |- scoped _ (?a ++ (let_own "ok" :: own "ok" :: go_failed_cast :: []) ++ ?l) =>
        replace (a ++ (let_own "ok" :: own "ok" :: go_failed_cast :: []) ++ l) with (declares D1 ++ [own "ok"; go_failed_cast] ++ l) by (unfold D1, new; destruct ps; reflexivity) end.
      apply frame_declares; [exact Hok|]. set (F := params ++ D1) in *.
      assert (Hup : forall q, In q params -> In q F) by (intros q Hq; apply in_or_app; now left).
      assert (Hok_ : In (Own "ok", s_ "ok") F) by (apply in_or_app; right; unfold D1, new; rewrite map_app; apply in_or_app; right; now left).
      apply Hup in Hv, Hr, Ht, He. cbn [app].
      apply scoped_cons; [exact (Forall_inv (known_right F [own "ok"] Hok ltac:(all_known)))|].
      apply scoped_block.
      { apply scoped_right_all. apply (ready_right go_globals go_stems 0), ready_block, known_ready; [exact Hok|]. all_known. }
      apply scoped_right.
      { apply known_right; [exact Hok|]. unfold before in Hp. destruct is_class; [|constructor].
        assert (Hid := Hup _ (Hp "id"%string ltac:(left; right; now left))). all_known. }
      apply go_parse_properties_scoped; [now apply frame_free|]. apply known_ready; [exact Hok|].
      apply (properties_known _ F r); [exact Hc|assumption..| | |].
      - intros Hps. apply in_or_app. right. unfold D1, new. destruct ps; [congruence|]. now left.
      - intros p n c Hpp Hn Hcl. constructor; [|constructor]. right. eexists _, _. split; [reflexivity|]. apply Hup. unfold params. rewrite !in_app_iff. right. left.
        apply in_flat_map. exists c. split; [eapply HC; eauto|now left].
      - intros p n c Hpp Hn Hcl. constructor; [|constructor]. right. eexists _, _. split; [reflexivity|]. apply Hup. unfold params. rewrite !in_app_iff. right. left.
        apply in_flat_map. exists c. split; [apply (HE p n Hpp Hn c Hcl)|now left].
    Qed.

    (** *** The parser of the graph *)
    Definition registry_vars (c : cls) : list (thing * str) := map (fun r => go_of_registry r c) ["Ref"; "Ok"; "Value"; "Map"]%string.
    Definition graph_own : list string := ["value"; "ref"; "target"; "errors"; "cast"; "ok"]%string.
    Definition graph_frame (l : list cls) : list (thing * str) := map (fun x => (Own x, s_ x)) graph_own ++ flat_map registry_vars l.

    Lemma graph_frame_ok l : incl l (g_classes g) -> NoDup l -> frame_ok (graph_frame l).
    Proof.
      intros H1 H2. unfold graph_frame. rewrite <- (app_nil_r (flat_map _ l)).
      apply (frame_ok_intro graph_own [] registry_vars ["Ref"; "Ok"; "Value"; "Map"]%string); [| | | |exact H1|exact H2|reflexivity].
      - repeat constructor; vm_compute; intuition discriminate.
      - intros x Hx. cbn in Hx |- *. tauto.
      - intros q Hq. cbn in Hq |- *. tauto.
      - repeat constructor; vm_compute; intuition discriminate.
    Qed.
    Lemma graph_own_in l x : In x graph_own -> In (Own x, s_ x) (graph_frame l).
    Proof. intros H. apply in_or_app. left. now apply (in_map (fun x => (Own x, s_ x))). Qed.
    Lemma graph_var_in l c r : In c l -> In r ["Ref"; "Ok"; "Value"; "Map"]%string -> In (go_of_registry r c) (graph_frame l).
    Proof. intros H Hr. apply in_or_app. right. apply in_flat_map. exists c. split; [exact H|]. now apply (in_map (fun r => go_of_registry r c)). Qed.
    Lemma role_in r : In r ["Ref"; "Ok"; "Value"; "Map"]%string -> In r roles.
    Proof. intros H. right. exact H. Qed.

    Ltac str_in := cbn; tauto.
    Ltac under_name := first
      [ vm_compute; intuition discriminate
      | let H := fresh in intros H; apply in_map_iff in H as (? & H & Hin); revert H; cbn [In] in Hin;
        repeat (destruct Hin as [<-|Hin]; [apply own_not_role; [cbn; tauto|str_in]|]); destruct Hin ].
    Ltac ku := first
      [ left; eexists; split; [reflexivity|first [apply predeclared_global; reflexivity | apply imported_global; assumption | assumption]]
      | right; eexists _, _; split; [first [left; reflexivity | right; reflexivity]|split; [first [assumption | apply graph_own_in; str_in | apply graph_var_in; [assumption|str_in]]|under_name]] ].
    Ltac frames G F inner := apply (under_right F inner G);
      [assumption | intros ? Hx; cbn in Hx |- *; tauto | intros ? ? Hf Hx; cbn in Hf; cbn; repeat (destruct Hf as [<-|Hf]; [cbn in Hx; tauto|]); destruct Hf | ku].
    Ltac und inner := first
      [ solve [eexists _, _; split; [left; reflexivity|reflexivity]]
      | match goal with
        | |- P_BlockScope.right _ [frame_of ?F] _ => frames (@nil (list (str * thing))) F inner
        | |- P_BlockScope.right _ (?a :: [frame_of ?F]) _ => frames [a] F inner
        | |- P_BlockScope.right _ (?a :: ?b :: [frame_of ?F]) _ => frames [a; b] F inner
        | |- P_BlockScope.right _ (?a :: ?b :: ?c :: [frame_of ?F]) _ => frames [a; b; c] F inner
        | |- P_BlockScope.right _ (?a :: ?b :: ?c :: ?d :: [frame_of ?F]) _ => frames [a; b; c; d] F inner
        end ].
    Ltac un inner := repeat first
      [ apply scoped_nil
      | apply scoped_block
      | match goal with |- S_Scope.scoped _ _ (?f :: _) (let_own _ :: _) => is_var f; fail 1 | |- S_Scope.scoped _ _ ([] :: _) (let_own _ :: _) => apply scoped_declare; [vm_compute; intuition discriminate|intros []|] end
      | apply scoped_cons; [und inner|] ].

    Lemma go_allocate_scoped done c l : incl (done ++ [c]) (g_classes g) -> NoDup (done ++ [c]) ->
      scoped [frame_of (graph_frame (done ++ [c]))] l -> scoped [frame_of (graph_frame done)] (go_allocate g c ++ l).
    Proof.
      intros Hi Hnd Hl. assert (Hok := graph_frame_ok _ Hi Hnd). assert (Hc : In c (g_classes g)) by (apply Hi; apply in_or_app; right; now left).
      assert (EF : graph_frame (done ++ [c]) = (((graph_frame done ++ [go_of_registry "Ref" c]) ++ [go_of_registry "Ok" c]) ++ [go_of_registry "Value" c]) ++ [go_of_registry "Map" c]).
      { unfold graph_frame. rewrite flat_map_app, <- !app_assoc. reflexivity. }
      assert (H4 := Hok). rewrite EF in H4. assert (H3 := frame_ok_prefix _ _ H4). assert (H2 := frame_ok_prefix _ _ H3). assert (H1 := frame_ok_prefix _ _ H2). assert (H0 := frame_ok_prefix _ _ H1).
      assert (Hcin : In c (done ++ [c])) by (apply in_or_app; right; now left).
      assert (Htype := type_global (c_name c) ltac:(apply class_structure; exact Hc)).
      unfold go_allocate. cbn [app].
      apply scoped_cons; [und ["id"%string]|]. apply frame_declare; [exact H1|].
      apply scoped_cons; [und ["id"%string]|]. apply frame_declare; [exact H2|].
      apply frame_declare; [exact H3|].
      apply scoped_cons; [und ["id"%string]|]. apply frame_declare; [exact H4|]. unfold go_of_registry in EF. cbn [fst snd go_of_registry]. rewrite <- EF.
      un ["id"%string]. 
      2: exact Hl.
      destruct (c_id_pattern c) as [p|] eqn:Ep; [|un ["id"%string]].
      apply scoped_right; [|un ["id"%string]].
      assert (HP : pattern_of g p) by (apply (pattern_of_id g p c); assumption).
      destruct (C30_patterns_unique_complete g) as (decls & Ed & _ & _ & _ & Hv).
      unfold go_pattern. destruct (Hv p HP) as (x & -> & Hx).
      assert (Hpat : In x go_globals).
      { apply declared_global. unfold go_declared, go_from_declared. rewrite Ed, !in_app_iff. right. right. left. right. left. apply in_map_iff. now exists (x, p). }
      clear Hx Hv. constructor; [und ["id"%string]|constructor].
    Qed.

    Lemma go_fill_scoped all c l : incl all (g_classes g) -> NoDup all -> In c all ->
      scoped [frame_of (graph_frame all)] l -> scoped [frame_of (graph_frame all)] (go_fill c ++ l).
    Proof.
      intros Hi Hnd Hcin Hl. assert (Hok := graph_frame_ok _ Hi Hnd). assert (Hc : In c (g_classes g)) by (now apply Hi).
      assert (Hfrom := from_global (c_name c) ltac:(apply class_structure; exact Hc)).
      unfold go_fill. cbn [app]. un ["id"; "value"]%string; [|exact Hl].
      apply scoped_declare; [vm_compute; intuition discriminate|vm_compute; intuition discriminate|].
      un ["id"; "value"]%string.
    Qed.

    Lemma go_parse_graph_right : block_right go_keywords go_globals (go_parse_graph g).
    Proof.
      assert (HNc : NoDup (g_classes g)) by (now apply (NoDup_map_inv c_name)).
      assert (Hok0 := graph_frame_ok [] (fun x H => match H with end) (NoDup_nil _)).
      unfold block_right. cbn [go_parse_graph fn_params fn_body].
      set (params := map (fun x => (Own x, s_ x)) ["value"; "ref"; "target"; "errors"]%string).
      assert (Hokp : frame_ok params) by (apply (frame_ok_prefix params (map (fun x => (Own x, s_ x)) ["cast"; "ok"]%string)); exact Hok0).
      apply (frame_declares params []); [exact Hokp|]. cbn [app].
      assert (Hv : In (Own "value", s_ "value") params) by (now left). assert (Hr : In (Own "ref", s_ "ref") params) by (right; now left).
      assert (Ht : In (Own "target", s_ "target") params) by (right; right; now left). assert (He : In (Own "errors", s_ "errors") params) by (right; right; right; now left).
      apply scoped_right; [apply known_right; [exact Hokp|]; unfold go_preconditions; all_known|].
      match goal with |- scoped ?F (?a :: ?b :: ?l) => change (scoped F ([a; b] ++ l)) end.
      apply scoped_right; [apply known_right; [exact Hokp|]; all_known|].
      apply (frame_declares (map (fun x => (Own x, s_ x)) ["cast"; "ok"]%string) params); [exact Hok0|].
      change (params ++ map (fun x => (Own x, s_ x)) ["cast"; "ok"]%string) with (graph_frame []). clear Hv Hr Ht He Hokp. clear params.
      apply scoped_cons; [und ["id"%string]|]. apply scoped_block; [un ["id"%string]|].
      assert (HA : forall l done rest, incl (done ++ l) (g_classes g) -> NoDup (done ++ l) ->
        scoped [frame_of (graph_frame (done ++ l))] rest -> scoped [frame_of (graph_frame done)] (flat_map (go_allocate g) l ++ rest)).
      { induction l as [|c l IH]; intros done rest Hi Hnd Hrest; [now rewrite app_nil_r in Hrest|]. cbn [flat_map]. rewrite <- app_assoc.
        replace (done ++ c :: l) with ((done ++ [c]) ++ l) in * by (now rewrite <- app_assoc).
        apply go_allocate_scoped; [intros x Hx; apply Hi; apply in_or_app; now left|now apply NoDup_app_parts in Hnd|]. now apply IH. }
      apply (HA (g_classes g) []); [apply incl_refl|exact HNc|]. cbn [app]. assert (Hok := graph_frame_ok _ (incl_refl _) HNc).
      assert (Herr : right [frame_of (graph_frame (g_classes g))] (own "errors")) by (und ["id"%string]).
      apply scoped_right; [revert Herr; generalize (right [frame_of (graph_frame (g_classes g))]); intros R Herr; destruct (g_classes g); repeat first [apply Forall_nil|apply Forall_cons; [exact Herr|]]|].
      assert (HF : forall l rest, incl l (g_classes g) -> scoped [frame_of (graph_frame (g_classes g))] rest ->
        scoped [frame_of (graph_frame (g_classes g))] (flat_map go_fill l ++ rest)).
      { induction l as [|c l IH]; intros rest Hi Hrest; [exact Hrest|]. cbn [flat_map]. rewrite <- app_assoc.
        apply go_fill_scoped; [apply incl_refl|exact HNc|apply Hi; now left|]. apply IH; [intros x Hx; apply Hi; now right|exact Hrest]. }
      apply HF; [apply incl_refl|].
      apply go_parse_properties_scoped; [now apply frame_free|]. apply known_ready; [exact Hok|].
      assert (Ht := graph_own_in (g_classes g) "target" ltac:(cbn; tauto)).
      apply (properties_known _ _ (g_ref g)); [constructor|apply graph_own_in; cbn; tauto..|intros _; apply graph_own_in; cbn; tauto| |]; intros; all_known.
    Qed.
  End From.

  (** *** Serialization *)
  Section To.
    Hypothesis Hfmt : g_classes g <> [] -> In pkg_fmt imported.
    Hypothesis Happart : forall c, In c (g_classes g) -> s_ "target" ++ ucamel (c_plural c) <> camel (c_name c) ++ s_ "Instance".

    Lemma to_support_known D t : forall ref, value_type g t ref -> ty_resolved g t -> Forall (known D) (to_support t).
    Proof.
      assert (Step : forall t u ref, value_type g t ref -> (exists mn mx, t = TArray u mn mx) \/ t = TMap u -> exists ref', value_type g u ref').
      { intros t' u ref [r ps p n Hc Hp Hin _] Hu. exists (r ++ s_ "/" ++ p_name p ++ levels (S n)). apply (value_type_at g u _ r ps p (S n)); [exact Hc|exact Hp| |reflexivity].
        now apply (inside_step _ _ _ Hin). }
      induction t; intros ref HV HT; cbn [to_support]; try (now constructor).
      - constructor; [|constructor]. left. eexists. split; [reflexivity|]. apply declared_global.
        assert (E : graph_needs g (KPrim PDuration) = true) by (apply graph_needs_spec; try discriminate; [exact HR|exists TDuration, ref; now split]).
        unfold go_declared, go_to_declared. rewrite E, !in_app_iff. right. right. right. left. now left.
      - destruct (Step _ t _ HV ltac:(left; eauto)) as (ref' & HV'). now apply (IHt ref').
      - destruct (Step _ t _ HV ltac:(right; eauto)) as (ref' & HV'). now apply (IHt ref').
      - cbn in HT. destruct (find_embed g name) as [e|] eqn:E; [|congruence]. apply find_some in E as [He E]. apply str_eqb_eq in E as <-.
        constructor; [|constructor]. left. eexists. split; [reflexivity|]. apply to_global. now apply embed_structure.
    Qed.
    Lemma to_properties_known D r ps : composite g r ps -> In (Own "instance", s_ "instance") D -> In (Own "target", s_ "target") D ->
      Forall (known D) (flat_map to_property_needs ps).
    Proof.
      intros Hc Hi Ht. apply Forall_flat_map, Forall_forall. intros p Hp. unfold to_property_needs, to_base. cbn [app].
      do 7 (constructor; [one_known|]). destruct (composite_value_type _ _ _ Hc Hp) as (ref & HV).
      apply (to_support_known D _ ref HV). now apply (composite_resolved r ps).
    Qed.

    Lemma go_serializer_right r ps : composite g r ps -> block_right go_keywords go_globals (go_serializer ps).
    Proof.
      intros Hc. unfold block_right. cbn [go_serializer fn_params fn_body].
      set (D := map (fun x => (Own x, s_ x)) ["instance"; "target"]%string).
      assert (Hok : frame_ok D).
      { split; [repeat constructor; vm_compute; intuition discriminate|]. intros y Hy. left. cbn in Hy |- *. tauto. }
      apply (frame_declares D []); [exact Hok|]. cbn [app].
      assert (Hi : In (Own "instance", s_ "instance") D) by (now left). assert (Ht : In (Own "target", s_ "target") D) by (right; now left).
      unfold go_start. cbn [app].
      do 5 (apply scoped_cons; [match goal with |- P_BlockScope.right _ _ ?c => exact (Forall_inv (known_right D [c] Hok ltac:(all_known))) end|]).
      apply scoped_cons; [now apply store_right|].
      rewrite <- (app_nil_r (go_serialize_properties ps 0)).
      apply go_serialize_properties_scoped; [now apply frame_free|apply known_ready; [exact Hok|now apply (to_properties_known D r)]|].
      intros. apply scoped_nil.
    Qed.

    Lemma lookup_app {A} x (l1 l2 : list (str * A)) : lookup x (l1 ++ l2) = match lookup x l1 with Some t => Some t | None => lookup x l2 end.
    Proof. induction l1 as [|[k v] l1 IH]; cbn [app lookup]; [reflexivity|]. destruct (str_eqb x k); [reflexivity|exact IH]. Qed.
    Lemma own_not_target x c : In c (g_classes g) -> In x own_locals -> x <> s_ "target" ++ ucamel (c_plural c).
    Proof.
      intros Hc H E. destruct (ucamel_plural c Hc) as (a & r & Ea & _). rewrite Ea in E. cbn in H.
      repeat (destruct H as [<-|H]; [discriminate E|]). destruct H.
    Qed.
    Lemma own_not_instance x c : In x own_locals -> x <> camel (c_name c) ++ s_ "Instance".
    Proof.
      intros H E. assert (K : forallb (fun y => negb (ends (s_ "Instance") y)) own_locals = true) by (vm_compute; reflexivity).
      rewrite forallb_forall in K. apply K in H. rewrite E, ends_app in H. discriminate.
    Qed.

    Lemma go_serialize_registry_scoped F c l : F <> [] -> In c (g_classes g) ->
      (forall x, In x ["instance"; "target"; "err"]%string -> S_Scope.meaning go_globals (s_ x) F = Some (Own x)) ->
      (forall x, In x go_globals -> S_Scope.meaning go_globals x F = Some (Outer x)) ->
      scoped F l -> scoped F (go_serialize_registry c ++ l).
    Proof.
      intros HF Hc Hown Hout Hl.
      assert (Hi := Hown "instance"%string ltac:(now left)). assert (Ht := Hown "target"%string ltac:(right; now left)). assert (He := Hown "err"%string ltac:(right; right; now left)).
      set (T := s_ "target" ++ ucamel (c_plural c)). set (I := camel (c_name c) ++ s_ "Instance").
      assert (HTI : T <> I) by (now apply Happart). assert (HIT : I <> T) by congruence.
      assert (LT : go_local T) by (right; right; exists c; auto). assert (LI : go_local I) by (right; right; exists c; auto).
      assert (OT : forall x, In x own_locals -> x <> T) by (intros x Hx; now apply own_not_target).
      assert (OI : forall x, In x own_locals -> x <> I) by (intros x Hx; now apply own_not_instance).
      assert (GT : forall x, In x go_globals -> x <> T) by (intros x Hx ->; apply (local_far T LT); now apply global_far).
      assert (GI : forall x, In x go_globals -> x <> I) by (intros x Hx ->; apply (local_far I LI); now apply global_far).
      assert (GD : forall x, In x go_globals -> x <> s_ "id") by (intros x Hx ->; apply (local_far (s_ "id")); [left; apply mem_In; reflexivity|now apply global_far]).
      assert (Hfmt' : In pkg_fmt go_globals) by (apply imported_global, Hfmt; intros E; rewrite E in Hc; destruct Hc).
      assert (Hto := to_global (c_name c) ltac:(apply class_structure; exact Hc)).
      unfold go_serialize_registry. fold T I. cbn [app].
      Ltac own_in := apply mem_In; reflexivity.
      Ltac apart := match goal with
        | |- ?x <> ?y => first [assumption
            | match goal with H : forall x, In x own_locals -> x <> y |- _ => apply H; own_in end
            | match goal with H : forall x, In x go_globals -> x <> y |- _ => apply H; first [assumption|apply predeclared_global; reflexivity] end
            | discriminate
            | apply not_eq_sym; match goal with H : forall x, In x own_locals -> x <> _ |- _ => apply H; own_in end ] end.
      Ltac me := eexists _, _; split; [first [left; reflexivity|right; reflexivity]|];
        repeat first [rewrite meaning_block | apply meaning_here | rewrite meaning_skip by apart];
        first [assumption | match goal with H : forall x, In x go_globals -> S_Scope.meaning _ _ _ = _ |- _ => apply H; first [assumption|apply predeclared_global; reflexivity] end].
      repeat first [apply scoped_cons; [solve [me]|] | apply scoped_nil | apply scoped_block
        | apply scoped_declare; [now apply local_unreserved|solve [intros []|intros [K|[]]; exact (OI (s_ "id") ltac:(own_in) K)]|]
        | apply scoped_declare; [vm_compute; intuition discriminate|intros []|] ].
      exact Hl.
    Qed.

    Lemma go_serialize_graph_right : block_right go_keywords go_globals (go_serialize_graph g).
    Proof.
      unfold block_right. cbn [go_serialize_graph fn_params fn_body].
      set (D := map (fun x => (Own x, s_ x)) ["instance"; "target"; "err"]%string).
      assert (Hok : frame_ok D).
      { split; [repeat constructor; vm_compute; intuition discriminate|]. intros y Hy. left. cbn in Hy |- *. tauto. }
      apply (frame_declares D []); [exact Hok|]. cbn [app].
      assert (Hi : In (Own "instance", s_ "instance") D) by (now left). assert (Ht : In (Own "target", s_ "target") D) by (right; now left).
      assert (He : In (Own "err", s_ "err") D) by (right; right; now left).
      unfold go_start. cbn [app].
      do 5 (apply scoped_cons; [match goal with |- P_BlockScope.right _ _ ?c => exact (Forall_inv (known_right D [c] Hok ltac:(all_known))) end|]).
      apply scoped_cons; [now apply store_right|].
      apply scoped_block.
      { apply scoped_cons; [exact (Forall_inv (known_right D [own "err"] Hok ltac:(all_known)))|].
        apply scoped_cons; [exact (Forall_inv (known_right D [outer (s_ "nil")] Hok ltac:(all_known)))|].
        apply scoped_block; [|apply scoped_nil].
        apply scoped_cons; [exact (Forall_inv (known_right D [outer (s_ "nil")] Hok ltac:(all_known)))|].
        apply scoped_cons; [exact (store_right D _ _ Hok Ht)|apply scoped_nil]. }
      apply go_serialize_properties_scoped; [now apply frame_free|apply known_ready; [exact Hok|]; apply (to_properties_known D (g_ref g)); [constructor|assumption..]|].
      intros N n' HNum _. cbn [enter].
      assert (HM : forall x, ~ gnum 0 x -> S_Scope.meaning go_globals x [rev N ++ frame_of D] = S_Scope.meaning go_globals x [frame_of D]).
      { intros x Hx. cbn [S_Scope.meaning]. rewrite lookup_app. destruct (lookup x (rev N)) as [t|] eqn:E; [|reflexivity]. exfalso. apply Hx.
        apply lookup_In in E. apply in_rev in E. rewrite Forall_forall in HNum. now apply HNum in E. }
      assert (H1 : forall x, In x ["instance"; "target"; "err"]%string -> S_Scope.meaning go_globals (s_ x) [rev N ++ frame_of D] = Some (Own x)).
      { intros x Hx. rewrite HM; [|apply local_unnumbered; left; cbn in Hx |- *; intuition (subst; auto)].
        apply frame_meaning; [apply Hok|]. now apply (in_map (fun x => (Own x, s_ x))). }
      assert (H2 : forall x, In x go_globals -> S_Scope.meaning go_globals x [rev N ++ frame_of D] = Some (Outer x)).
      { intros x Hx. rewrite HM by (now apply far_unnumbered, global_far). apply frame_outer; [|exact Hx].
        intros Hin. apply (local_far x); [now apply (frame_ok_local D)|now apply global_far]. }
      assert (HA : forall l, incl l (g_classes g) -> scoped [rev N ++ frame_of D] (flat_map go_serialize_registry l)).
      { induction l as [|c l IH]; intros Hl; [apply scoped_nil|]. cbn [flat_map]. apply go_serialize_registry_scoped; [discriminate|apply Hl; now left|exact H1|exact H2|].
        apply IH. intros x Hx. apply Hl. now right. }
      apply HA, incl_refl.
    Qed.
  End To.

  Lemma class_at j c : nth_error (g_classes g) j = Some c -> nth_error (composites g) j = Some (c_props c) /\ j < root g.
  Proof.
    intros Hc. assert (j < length (g_classes g)) by (apply nth_error_Some; congruence). split; [|unfold root, n_classes, n_embeds; lia].
    unfold composites. rewrite nth_error_app1 by (now rewrite map_length). now rewrite nth_error_map, Hc.
  Qed.
  Lemma embed_at j e : nth_error (g_embeds g) j = Some e ->
    nth_error (composites g) (length (g_classes g) + j) = Some (e_props e) /\ length (g_classes g) + j < root g.
  Proof.
    intros He. assert (j < length (g_embeds g)) by (apply nth_error_Some; congruence). split; [|unfold root, n_classes, n_embeds; lia].
    unfold composites. rewrite nth_error_app2 by (rewrite map_length; lia). rewrite map_length, Nat.add_comm, Nat.add_sub.
    rewrite nth_error_app1 by (now rewrite map_length). now rewrite nth_error_map, He.
  Qed.

  Lemma go_parsers_right : In pkg_strings imported -> In pkg_fmt imported ->
    (forall t ref x, value_type g t ref -> In x (kind_packages t) -> In x imported) ->
    forall f, In f (go_parsers g) -> block_right go_keywords go_globals f.
  Proof.
    intros H1 H2 H3 f Hf. unfold go_parsers in Hf. rewrite !in_app_iff in Hf. destruct Hf as [Hf|[Hf|[<-|[]]]].
    - apply in_map_iff in Hf as ([c k] & <- & Hc). apply combine_seq_nth in Hc as (j & -> & Hc). cbn [fst snd Nat.add].
      destruct (class_at j c Hc) as [Hk Hr]. apply (go_parse_composite_right H1 H2 H3 true j (c_ref c)); [exact Hk|exact Hr|].
      constructor. now apply nth_error_In in Hc.
    - apply in_map_iff in Hf as ([e k] & <- & He). apply combine_seq_nth in He as (j & -> & He). cbn [fst snd].
      destruct (embed_at j e He) as [Hk Hr]. apply (go_parse_composite_right H1 H2 H3 false _ (e_ref e)); [exact Hk|exact Hr|].
      constructor. now apply nth_error_In in He.
    - now apply go_parse_graph_right.
  Qed.
  Lemma go_serializers_right : (g_classes g <> [] -> In pkg_fmt imported) ->
    (forall c, In c (g_classes g) -> s_ "target" ++ ucamel (c_plural c) <> camel (c_name c) ++ s_ "Instance") ->
    forall f, In f (go_serializers g) -> block_right go_keywords go_globals f.
  Proof.
    intros H1 H2 f Hf. unfold go_serializers in Hf. rewrite !in_app_iff in Hf. destruct Hf as [Hf|[Hf|[<-|[]]]].
    - apply in_map_iff in Hf as (c & <- & Hc). apply go_serializer_right with (r := c_ref c); try assumption. now constructor.
    - apply in_map_iff in Hf as (e & <- & He). apply go_serializer_right with (r := e_ref e); try assumption. now constructor.
    - now apply go_serialize_graph_right.
  Qed.
End Package.
