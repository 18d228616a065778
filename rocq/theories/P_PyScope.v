(** Proofs about the names in the generated Python functions. *)
From Coq Require Import String List Arith NArith ZArith Bool Lia Permutation.
From Verif Require Import Base M_Naming M_Schema M_Dec M_TypeGraph M_Walk M_GoImports M_PyImports M_Text M_PyGen M_AutoID S_Scope M_Scope M_PyScope
  S_TypeGraph S_Conform S_Walk S_GoImports S_LangValid P_Common P_TypeGraph P_GoImports P_References P_Scope.
Import ListNotations.
Open Scope list_scope.
Local Open Scope nat_scope.

(** * The numbered variables *)

Definition numbered (stems : list str) (x : str) : Prop := exists stem k, In stem stems /\ x = stem ++ dec_nat k.
Definition all_numbered (stems : list str) (f : gen) : Prop := forall u, Forall (numbered stems) (fst (f u)).

Section Numbered.
  Variable stems : list str.
  Lemma numbered_nothing : all_numbered stems nothing.
  Proof. intros u. constructor. Qed.
  Lemma numbered_declare_uid names rest :
    (forall uid, all_numbered stems (rest uid)) ->
    (forall uid, forall x, In x (names uid) -> exists stem, In stem stems /\ x = stem ++ uid) ->
    all_numbered stems (with_uid (fun uid => declare (names uid) (rest uid))).
  Proof.
    intros Hr Hn u. unfold with_uid, declare. specialize (Hr (dec_nat u) (S u)). destruct (rest (dec_nat u) (S u)) as [ds u'].
    cbn [fst] in *. apply Forall_app. split; [|exact Hr]. apply Forall_forall. intros x Hx.
    destruct (Hn _ _ Hx) as (stem & Hs & ->). now exists stem, u.
  Qed.
  Lemma numbered_and_then a b : all_numbered stems a -> all_numbered stems b -> all_numbered stems (and_then a b).
  Proof.
    intros Ha Hb u. unfold and_then. specialize (Ha u). destruct (a u) as [ds u1]. specialize (Hb u1). destruct (b u1) as [es u2].
    cbn [fst] in *. apply Forall_app. now split.
  Qed.
  Lemma numbered_body f ps : (forall p, all_numbered stems (f p)) -> forall x, In x (body f ps) -> numbered stems x.
  Proof.
    intros H x Hx. unfold body in Hx.
    assert (A : all_numbered stems (fold_right (fun p rest => and_then (f p) rest) nothing ps)).
    { clear Hx. induction ps as [|p ps IH]; [exact numbered_nothing|]. now apply numbered_and_then. }
    specialize (A 0). rewrite Forall_forall in A. now apply A.
  Qed.
End Numbered.

Definition py_parse_stems : list str := map s_ ["value_"; "target_"; "i_"; "item_"; "target_item_"; "key_"]%string.
Definition py_serialize_stems : list str := map s_ ["target_"; "item_"; "target_item_"; "key_"; "value_"; "target_value_"]%string.

Ltac stem_of := intros ? ? Hin; repeat (destruct Hin as [<-|Hin]; [eexists; split; [|reflexivity]; cbn; tauto|]); destruct Hin.
Lemma py_prelude_stems e uid x : In x (py_prelude e uid) -> x = s_ "value_" ++ uid.
Proof. unfold py_prelude. destruct (is_variable e); [intros []|intros [<-|[]]; reflexivity]. Qed.
Ltac stem_of_prelude := intros ? ? Hin; try (apply in_app_or in Hin as [Hin|Hin]; [apply py_prelude_stems in Hin as ->; eexists; split; [|reflexivity]; cbn; tauto|]);
  try (apply py_prelude_stems in Hin as ->; eexists; split; [|reflexivity]; cbn; tauto);
  repeat (destruct Hin as [<-|Hin]; [eexists; split; [|reflexivity]; cbn; tauto|]); try destruct Hin.

Lemma py_parse_value_numbered t : forall e, all_numbered py_parse_stems (py_parse_value e t).
Proof.
  induction t; intros e; cbn [py_parse_value];
    (apply numbered_declare_uid; [intros uid; first [apply numbered_nothing|apply IHt]|stem_of_prelude]).
Qed.
Lemma py_parse_numbered ps x : In x (py_parse_body ps) -> numbered py_parse_stems x.
Proof.
  apply numbered_body. intros p. unfold py_parse_property. apply numbered_declare_uid; [intros uid; apply py_parse_value_numbered|stem_of].
Qed.
Lemma numbered_uid_if stems (b : bool) f h :
  all_numbered stems (with_uid f) -> all_numbered stems (with_uid h) -> all_numbered stems (with_uid (fun uid => if b then f uid else h uid)).
Proof. now destruct b. Qed.
Lemma py_serialize_value_numbered S t : all_numbered py_serialize_stems (py_serialize_value S t).
Proof.
  induction t; cbn [py_serialize_value]; try apply numbered_nothing.
  - apply numbered_uid_if; [intros u; constructor|]. apply numbered_uid_if; apply numbered_declare_uid; try stem_of; intros uid; [apply numbered_nothing|apply IHt].
  - apply numbered_uid_if; apply numbered_declare_uid; try stem_of; intros uid; [apply numbered_nothing|apply IHt].
Qed.
Lemma py_serialize_numbered S ps x : In x (py_serialize_body S ps) -> numbered py_serialize_stems x.
Proof. apply numbered_body. intros p. apply py_serialize_value_numbered. Qed.

Lemma numbered_last stems x : numbered stems x -> is_digit (last_char x) = true.
Proof. intros (stem & k & _ & ->). apply last_digit. Qed.
Lemma not_last x y : is_digit (last_char x) = true -> is_digit (last_char y) = false -> x <> y.
Proof. congruence. Qed.
Lemma numbered_unreserved stems x : numbered stems x -> ~ In x python37_keywords.
Proof.
  intros H Hin. apply numbered_last in H.
  assert (K : forallb (fun k => negb (is_digit (last_char k))) python37_keywords = true) by (vm_compute; reflexivity).
  rewrite forallb_forall in K. apply K in Hin. now rewrite H in Hin.
Qed.

Lemma bound_parse py : bound_as (mod_parse py) = bound_as (mod_types py).
Proof.
  unfold bound_as, mod_parse, mod_types. induction (pc_module_name py) as [|c m IH]; [reflexivity|]. cbn [app takewhile].
  destruct (negb (N.eqb c 46)); [f_equal; exact IH|reflexivity].
Qed.

Definition capital_name (n : str) : Prop := exists a r, n = a :: r /\ is_upper a = true.
Lemma lower_letter n x : capital_name n -> exists a r, lower n ++ x = a :: r /\ is_lower a = true.
Proof.
  intros (a & r & -> & Ha). exists (lower_c a), (lower r ++ x). split; [reflexivity|].
  unfold lower_c. rewrite Ha. unfold is_upper, is_lower in *. apply andb_true_iff in Ha as [H1 H2].
  apply N.leb_le in H1. apply N.leb_le in H2. apply andb_true_iff. split; apply N.leb_le; lia.
Qed.
Lemma lower_not_underscore n x y : capital_name n -> lower n ++ x <> s_ "_" ++ y.
Proof. intros H E. destruct (lower_letter n x H) as (a & r & Ea & Ha). rewrite Ea in E. cbn in E. injection E as -> _. discriminate. Qed.

Lemma str_neq x y : str_eqb x y = false -> x <> y.
Proof. apply str_eqb_neq. Qed.
Ltac lit := apply str_neq; reflexivity.

Section Python.
  Variable py : py_conf.
  Variable g : graph.
  Hypothesis HR : resolved g.
  Hypothesis HN : NoDup (map c_name (g_classes g)).
  Hypothesis Hplural : forall c, In c (g_classes g) -> capital_name (c_plural c).
  Hypothesis HNplural : NoDup (map lower (map c_plural (g_classes g))).
  Hypothesis Hname : forall n, In n (structure_names g) -> capital_name n.
  Let pkg : str := bound_as (mod_types py).

  (** * Parsing *)

  Definition py_locals : list str := map s_ ["value"; "ref"; "errors"; "target"; "graph"; "registry_value"; "id"; "instance_value"; "err"]%string.
  Definition py_local (x : str) : Prop :=
    In x py_locals \/
    (exists c, In c (g_classes g) /\ (x = py_registry c \/ x = s_ "target_" ++ lower (c_name c))) \/
    numbered py_parse_stems x.

  Definition free_text (x : str) : bool :=
    negb (mem x py_locals) && negb (ends (s_ "_registry") x) && negb (begins (s_ "target_") x) && negb (is_digit (last_char x)).
  Lemma free_not_local x : free_text x = true -> ~ py_local x.
  Proof.
    unfold free_text. rewrite !andb_true_iff, !negb_true_iff. intros (((H1 & H2) & H3) & H4) [H|[(c & _ & [->| ->])|H]].
    - apply mem_In in H. congruence.
    - unfold py_registry in H2. now rewrite ends_app in H2.
    - now rewrite begins_app in H3.
    - apply numbered_last in H. congruence.
  Qed.
  Lemma underscore_not_local y : ~ py_local (s_ "_" ++ y).
  Proof.
    intros [H|[(c & Hc & [H|H])|(stem & k & Hs & H)]].
    - cbn in H. repeat (destruct H as [H|H]; [discriminate H|]). destruct H.
    - symmetry in H. revert H. apply lower_not_underscore. now apply Hplural.
    - discriminate H.
    - cbn in Hs. repeat (destruct Hs as [<-|Hs]; [discriminate H|]). destruct Hs.
  Qed.

  Lemma registry_last c : last_char (py_registry c) = last_char (s_ "_registry").
  Proof. unfold py_registry. now apply last_char_app. Qed.
  Lemma registry_ends c x : ends (s_ "_registry") x = false -> py_registry c <> x.
  Proof. intros H <-. unfold py_registry in H. now rewrite ends_app in H. Qed.
  Lemma registry_unreserved c : ~ In (py_registry c) python37_keywords.
  Proof.
    intros H. assert (K : forallb (fun k => negb (ends (s_ "_registry") k)) python37_keywords = true) by (vm_compute; reflexivity).
    rewrite forallb_forall in K. apply K in H. unfold py_registry in H. now rewrite ends_app in H.
  Qed.
  Lemma registry_inj c d : In c (g_classes g) -> In d (g_classes g) -> py_registry c = py_registry d -> c = d.
  Proof.
    intros Hc Hd H. unfold py_registry in H. apply app_inv_tail in H. rewrite map_map in HNplural.
    clear HN Hplural. revert HNplural Hc Hd. induction (g_classes g) as [|e l IH]; [intros _ []|]. cbn [map]. intros Hnd Hc Hd. inversion Hnd as [|? ? Hni Hnd']; subst.
    destruct Hc as [->|Hc], Hd as [->|Hd].
    - reflexivity.
    - exfalso. apply Hni. rewrite H. apply in_map_iff. now exists d.
    - exfalso. apply Hni. rewrite <- H. apply in_map_iff. now exists c.
    - now apply IH.
  Qed.
  Lemma registries_nodup l : incl l (g_classes g) -> NoDup l -> NoDup (map py_registry l).
  Proof.
    intros Hi. induction 1 as [|c l Hc _ IH]; [constructor|]. cbn [map]. constructor.
    - intros H. apply in_map_iff in H as (d & E & Hd). apply registry_inj in E; [subst; contradiction|apply Hi; now right|apply Hi; now left].
    - apply IH. intros d Hd. apply Hi. now right.
  Qed.

  Lemma py_mentions_declared registry t : (forall c, declared (registry c) = []) -> declared (py_parse_mentions py g registry t) = [].
  Proof.
    intros H. unfold py_parse_mentions. rewrite !declared_app, declared_outers, declared_owns, !declared_flat_map. cbn [app].
    rewrite (declared_mentions (map _ _)) by (intros c Hc; apply in_map_iff in Hc as (m & <- & _); unfold outer; eauto). cbn [app].
    replace (declared (if has_duration t then _ else _)) with (@nil str) by (now destruct (has_duration t)). cbn [app].
    replace (flat_map _ (classes_in t)) with (@nil str).
    2:{ symmetry. induction (classes_in t) as [|n l IH]; [reflexivity|]. cbn [flat_map]. rewrite IH. destruct (find_class g n); [now rewrite H|reflexivity]. }
    cbn [app]. induction (embeds_in t) as [|n l IH]; [reflexivity|]. cbn [flat_map]. rewrite IH, declared_cons, declared_flat_map. cbn [outer declared_in app].
    induction (embed_references g n) as [|c m IHm]; [reflexivity|]. cbn [flat_map]. now rewrite H.
  Qed.
  Lemma py_block_declared registry ps : (forall c, declared (registry c) = []) ->
    declared_in (py_parse_block py g registry ps) = py_parse_body ps ++ [s_ "err"].
  Proof.
    intros H. unfold py_parse_block. rewrite declared_block, !declared_app, declared_autos, declared_flat_map. f_equal. cbn [let_own own declared declared_in flat_map app].
    f_equal. induction ps as [|p ps IH]; [reflexivity|]. cbn [flat_map]. rewrite IH, py_mentions_declared by exact H. reflexivity.
  Qed.

  Variable G : list str.

  (** The code of the properties: the environment knows the variables which are not numbered. *)
  Section Block.
    Variable owned : str -> Prop.
    Variable A : list (str * thing).
    Variable registry : cls -> list code.
    Variable ps : list prop.
    Hypothesis Hps : In ps (composites g).
    Hypothesis Howned : forall x, owned x -> py_local x.
    Hypothesis Herr : owned (s_ "err").
    Hypothesis HA : forall x t, lookup x A = Some t -> is_digit (last_char x) = false /\ x <> s_ "err".
    Hypothesis Hfixed : forall x, In x ["value"; "ref"; "errors"]%string -> owned (s_ x) /\ lookup (s_ x) A = Some (Own x).
    Hypothesis Hbuiltins : incl python_builtins G.
    Hypothesis Huses : forall m, In m (py_parse_properties_uses py ps) -> In (bound_as m) G.
    Hypothesis Hpkg : ~ py_local pkg.
    Hypothesis Hduration : graph_needs g (KPrim PDuration) = true -> In (s_ "_duration_from_string") G.
    Hypothesis Hembeds : forall e, In e (g_embeds g) -> In (py_inner (e_name e)) G.
    Hypothesis Hclasses : forall p n c, In p ps -> In n (classes_in (p_type p)) -> find_class g n = Some c ->
      Forall (mentioned_right G owned A) (registry c).
    Hypothesis Hnested : forall p n c, In p ps -> In n (embeds_in (p_type p)) -> In c (embed_references g n) ->
      Forall (mentioned_right G owned A) (registry c).

    Lemma outer_literal x : free_text x = true -> In x G -> mentioned_right G owned A (outer x).
    Proof. intros H1 H2. exists (Outer x), x. split; [reflexivity|]. right. split; [reflexivity|]. split; [|exact H2]. intros H. apply Howned in H. now apply free_not_local in H1. Qed.
    Lemma builtin_literal x : free_text x = true -> mem x python_builtins = true -> mentioned_right G owned A (outer x).
    Proof. intros H1 H2. apply outer_literal; [exact H1|]. apply Hbuiltins. now apply mem_In. Qed.

    Lemma py_uses_free t m : In m (py_parse_uses py t) -> ~ py_local (bound_as m).
    Proof.
      intros H. assert (C : m = mod_types py \/ m = mod_parse py \/ In m [mod_re; mod_pathlib; mod_datetime; mod_pytz; mod_pytz_exceptions; mod_collections]).
      { induction t; cbn [py_parse_uses] in H; try (now destruct H); try (now apply IHt);
          repeat match type of H with
                 | In _ (match ?b with _ => _ end) => destruct b
                 | In _ (_ ++ _) => apply in_app_or in H as [H|H]
                 end; try (now apply IHt); cbn in H |- *; intuition. }
      destruct C as [->|[->|C]]; [exact Hpkg|rewrite bound_parse; exact Hpkg|].
      cbn in C. repeat (destruct C as [<-|C]; [apply free_not_local; vm_compute; reflexivity|]). destruct C.
    Qed.

    Lemma has_duration_needed p : In p ps -> has_duration (p_type p) = true -> graph_needs g (KPrim PDuration) = true.
    Proof.
      intros Hp Hd. apply (graph_needs_spec g HR); [discriminate..|].
      destruct (composites_composite _ _ Hps) as (r & Hc).
      assert (I : exists n, inside (p_type p) n TDuration).
      { clear - Hd. induction (p_type p); cbn in Hd; try discriminate.
        - exists 0. constructor.
        - destruct (IHt Hd) as (n & Hn). exists (S n). now constructor.
        - destruct (IHt Hd) as (n & Hn). exists (S n). now constructor. }
      destruct I as (n & Hn). exists TDuration. eexists. split; [|reflexivity]. econstructor; [exact Hc|exact Hp|exact Hn|reflexivity].
    Qed.

    Lemma py_mentions_right p : In p ps -> Forall (mentioned_right G owned A) (py_parse_mentions py g registry (p_type p)).
    Proof.
      intros Hp. unfold py_parse_mentions. rewrite !Forall_app. split; [|split; [|split; [|split; [|split]]]].
      - unfold outers. apply Forall_forall. intros c Hc. apply in_map_iff in Hc as (x & <- & Hx).
        cbn in Hx. repeat (destruct Hx as [<-|Hx]; [apply builtin_literal; vm_compute; reflexivity|]). destruct Hx.
      - unfold owns. apply Forall_forall. intros c Hc. apply in_map_iff in Hc as (x & <- & Hx).
        destruct (Hfixed x Hx). exists (Own x), (s_ x). split; [reflexivity|]. now left.
      - apply Forall_forall. intros c Hc. apply in_map_iff in Hc as (m & <- & Hm). exists (Outer (bound_as m)), (bound_as m).
        split; [reflexivity|]. right. split; [reflexivity|]. split.
        + intros H. apply Howned in H. now apply (py_uses_free (p_type p) m).
        + apply Huses. unfold py_parse_properties_uses. apply in_flat_map. now exists p.
      - destruct (has_duration (p_type p)) eqn:E; [|constructor]. constructor; [|constructor].
        apply outer_literal; [vm_compute; reflexivity|]. apply Hduration. now apply (has_duration_needed p).
      - apply Forall_forall. intros c Hc. apply in_flat_map in Hc as (n & Hn & Hc).
        destruct (find_class g n) as [d|] eqn:E; [|destruct Hc]. pose proof (Hclasses p n d Hp Hn E) as H. rewrite Forall_forall in H. now apply H.
      - apply Forall_forall. intros c Hc. apply in_flat_map in Hc as (n & Hn & Hc). destruct Hc as [<-|Hc].
        + exists (Outer (py_inner n)), (py_inner n). split; [reflexivity|]. right. split; [reflexivity|]. split.
          * intros H. apply Howned in H. now apply underscore_not_local in H.
          * assert (Ht : ty_resolved g (p_type p)) by (now apply (HR ps)).
            assert (Hf : find_embed g n <> None).
            { clear - Ht Hn. induction (p_type p); cbn [embeds_in ty_resolved] in *; try (destruct Hn; fail); auto.
              destruct Hn as [<-|[]]. exact Ht. }
            apply find_embed_name in Hf. apply in_map_iff in Hf as (e & <- & He). now apply Hembeds.
        + apply in_flat_map in Hc as (d & Hd & Hc). pose proof (Hnested p n d Hp Hn Hd) as H. rewrite Forall_forall in H. now apply H.
    Qed.

    Lemma mentioned_mono B c : agrees A B -> mentioned_right G owned A c -> mentioned_right G owned B c.
    Proof. intros H (t & x & -> & [[H1 H2]|H1]); exists t, x; (split; [reflexivity|]); [left; split; [exact H1|now apply H]|now right]. Qed.

    Hypothesis Hnothing : forall c, declared (registry c) = [].
    Lemma py_block_static l : static python37_keywords G owned A l -> static python37_keywords G owned A (py_parse_block py g registry ps :: l).
    Proof.
      intros Hl. unfold py_parse_block. apply static_block; [| |exact Hl].
      - intros x t Hx Hd. rewrite <- declared_block in Hd. change (Block _) with (py_parse_block py g registry ps) in Hd.
        rewrite py_block_declared in Hd by exact Hnothing. destruct (HA x t Hx) as [H1 H2].
        apply in_app_or in Hd as [Hd|[Hd|[]]]; [apply py_parse_numbered, numbered_last in Hd; congruence|congruence].
      - apply static_autos.
        + intros x Hx. apply py_parse_numbered in Hx. split; [now apply (numbered_unreserved py_parse_stems)|].
          destruct (lookup x A) as [t|] eqn:E; [|reflexivity]. apply HA in E as [E _]. apply numbered_last in Hx. congruence.
        + cbn [app]. apply st_declare; [vm_compute; intuition discriminate|]. apply st_own; [exact Herr|apply lookup_here|].
          rewrite <- app_nil_r. apply static_mentions; [|constructor]. apply Forall_forall. intros c Hc.
          apply in_flat_map in Hc as (p & Hp & Hc). apply mentioned_mono.
          * intros x t Hx. rewrite lookup_skip; [exact Hx|now apply (HA x t)].
          * pose proof (py_mentions_right p Hp) as H. rewrite Forall_forall in H. now apply H.
    Qed.
  End Block.

  (** ** The functions *)
  Definition own_names (f : function) (x : str) : Prop := In x (map snd (fn_params f)) \/ assigns x (fn_body f).
  Lemma own_declared f x : own_names f x -> In x (map snd (fn_params f)) \/ In x (declared (fn_body f)).
  Proof. intros [H|H]; [now left|right; now apply assigns_declared]. Qed.
  Definition start (f : function) : list (str * thing) := map (fun p => (snd p, fst p)) (fn_params f).
  Lemma start_param f t x : NoDup (map snd (fn_params f)) -> In (t, x) (fn_params f) -> lookup x (start f) = Some t.
  Proof.
    intros Hnd Hin. apply In_lookup.
    - unfold keys, start. rewrite map_map. exact Hnd.
    - unfold start. apply in_map_iff. now exists (t, x).
  Qed.
  Lemma start_keys f x t : lookup x (start f) = Some t -> In x (map snd (fn_params f)).
  Proof. intros H. apply lookup_In in H. unfold start in H. apply in_map_iff in H as ((t', x') & E & H). injection E as <- <-. apply in_map_iff. now exists (t', x'). Qed.
  Lemma python_right_static f : NoDup (map snd (fn_params f)) -> (forall p, In p (fn_params f) -> ~ In (snd p) python37_keywords) ->
    static python37_keywords G (own_names f) (start f) (fn_body f) -> python_right python37_keywords G f.
  Proof. intros H1 H2 H3. split; [exact H1|]. split; [exact H2|]. intros tr Htr. eapply static_sound; [exact H3|intros x t Hx; exact Hx|exact Htr]. Qed.

  Lemma params_nodup before after l : NoDup (before ++ after) -> forallb (fun x => negb (ends (s_ "_registry") x)) (before ++ after) = true ->
    incl l (g_classes g) -> NoDup l -> NoDup (before ++ map py_registry l ++ after).
  Proof.
    intros H1 H2 H3 H4. rewrite forallb_forall in H2.
    assert (H : forall x, In x (before ++ after) -> ~ In x (map py_registry l)).
    { intros x Hx Hr. apply in_map_iff in Hr as (c & <- & _). apply H2 in Hx. unfold py_registry in Hx. now rewrite ends_app in Hx. }
    induction before as [|x before IH].
    - cbn [app] in *. apply NoDup_app_intro; [now apply registries_nodup|exact H1|]. intros x Hx Ha. now apply (H x).
    - cbn [app] in *. inversion H1 as [|? ? H5 H6]; subst. constructor.
      + intros Hx. apply in_app_or in Hx as [Hx|Hx]; [apply H5; apply in_or_app; now left|].
        apply in_app_or in Hx as [Hx|Hx]; [apply (H x (or_introl eq_refl) Hx)|apply H5; apply in_or_app; now right].
      + apply IH; [assumption|intros y Hy; apply H2; now right|intros y Hy; apply H; now right].
  Qed.

  Hypothesis Hbuiltins : incl python_builtins G.
  Hypothesis Huses : incl (map bound_as (py_from_uses py g)) G.
  Hypothesis Hpkg : ~ py_local pkg.
  Hypothesis Hduration : graph_needs g (KPrim PDuration) = true -> In (s_ "_duration_from_string") G.
  Hypothesis Hinner : forall n, In n (map c_name (g_classes g) ++ map e_name (g_embeds g)) -> In (py_inner n) G.

  Lemma uses_properties ps m : In ps (composites g) -> In m (py_parse_properties_uses py ps) -> In (bound_as m) G.
  Proof.
    intros Hps Hm. apply Huses. apply in_map. unfold py_from_uses. apply in_or_app. right. unfold composites in Hps.
    apply in_app_or in Hps as [Hps|Hps].
    - apply in_map_iff in Hps as (c & <- & Hc). apply in_or_app. left. apply in_flat_map. exists c. split; [exact Hc|].
      unfold py_parse_composite_uses. apply in_or_app. now right.
    - apply in_app_or in Hps as [Hps|[<-|[]]].
      + apply in_map_iff in Hps as (e & <- & He). apply in_or_app. right. apply in_or_app. left. apply in_flat_map. exists e. split; [exact He|].
        unfold py_parse_composite_uses. apply in_or_app. now right.
      + apply in_or_app. right. apply in_or_app. right. unfold py_parse_graph_uses. apply in_or_app. right. apply in_or_app. now right.
  Qed.
  Lemma uses_graph m : In m (py_parse_graph_uses py g) -> In (bound_as m) G.
  Proof. intros Hm. apply Huses, in_map. unfold py_from_uses. apply in_or_app. right. apply in_or_app. right. apply in_or_app. now right. Qed.
  Lemma pkg_known : In pkg G.
  Proof. apply uses_graph. unfold py_parse_graph_uses. apply in_or_app. left. cbn. auto. Qed.

  Section Outer.
    Variable owned : str -> Prop.
    Hypothesis Howned : forall x, owned x -> py_local x.
    Lemma outer_pkg A l : static python37_keywords G owned A l -> static python37_keywords G owned A (outer pkg :: l).
    Proof. intros H. apply st_outer; [intros Ho; now apply Howned in Ho|exact pkg_known|exact H]. Qed.
    Lemma outer_builtins A xs l : forallb (fun x => free_text (s_ x) && mem (s_ x) python_builtins) xs = true ->
      static python37_keywords G owned A l -> static python37_keywords G owned A (outers xs ++ l).
    Proof.
      induction xs as [|x xs IH]; intros Hx Hl; [exact Hl|]. cbn [forallb] in Hx. apply andb_true_iff in Hx as [Hx Hxs].
      apply andb_true_iff in Hx as [H1 H2]. cbn. apply st_outer; [|apply Hbuiltins; now apply mem_In|now apply IH].
      intros Ho. apply Howned in Ho. now apply free_not_local in H1.
    Qed.
    Lemma outer_inner A n l : In n (map c_name (g_classes g) ++ map e_name (g_embeds g)) ->
      static python37_keywords G owned A l -> static python37_keywords G owned A (outer (py_inner n) :: l).
    Proof. intros Hn H. apply st_outer; [|now apply Hinner|exact H]. intros Ho. apply Howned in Ho. now apply underscore_not_local in Ho. Qed.
  End Outer.
  Lemma owns_known owned A xs l : (forall x, In x xs -> owned (s_ x) /\ lookup (s_ x) A = Some (Own x)) ->
    static python37_keywords G owned A l -> static python37_keywords G owned A (owns xs ++ l).
  Proof.
    induction xs as [|x xs IH]; intros Hx Hl; [exact Hl|]. cbn. destruct (Hx x (or_introl eq_refl)).
    apply st_own; [assumption..|]. apply IH; [|exact Hl]. intros y Hy. apply Hx. now right.
  Qed.

  Lemma py_parse_inner_right k ps : nth_error (composites g) k = Some ps -> k < root g ->
    python_right python37_keywords G (py_parse_inner py g (references_of g k) ps).
  Proof.
    intros Hk Hroot. destruct (references_of_spec g HR HN k ps Hk Hroot) as (HI & HD & HC & HE).
    set (refs := references_of g k) in *. set (f := py_parse_inner py g refs ps).
    assert (Hps : In ps (composites g)) by (now apply nth_error_In in Hk).
    assert (En : map snd (fn_params f) = [s_ "value"] ++ map py_registry refs ++ map s_ ["ref"; "target"; "errors"]%string).
    { cbn [f py_parse_inner fn_params]. rewrite !map_app, map_map. reflexivity. }
    assert (Hnd : NoDup (map snd (fn_params f))).
    { rewrite En. apply params_nodup; [|vm_compute; reflexivity|exact HI|exact HD]. repeat constructor; vm_compute; intuition discriminate. }
    assert (Hparam : forall t x, In (t, x) (fn_params f) -> own_names f x /\ lookup x (start f) = Some t).
    { intros t x H. split; [left; apply in_map_iff; now exists (t, x)|now apply start_param]. }
    assert (Hreg : forall c, In c refs -> own_names f (py_registry c) /\ lookup (py_registry c) (start f) = Some (For "registry" (c_name c))).
    { intros c Hc. apply Hparam. cbn [f py_parse_inner fn_params]. apply in_or_app. right. apply in_or_app. left. apply in_map_iff. now exists c. }
    assert (Hlit : forall x, In x ["value"; "ref"; "target"; "errors"]%string -> own_names f (s_ x) /\ lookup (s_ x) (start f) = Some (Own x)).
    { intros x Hx. apply Hparam. cbn [f py_parse_inner fn_params]. destruct Hx as [<-|Hx]; [now left|]. apply in_or_app. right. apply in_or_app. right.
      cbn in Hx. destruct Hx as [<-|[<-|[<-|[]]]]; cbn; auto. }
    assert (Hdecl : declared (fn_body f) = py_parse_body ps ++ [s_ "err"]).
    { cbn [f py_parse_inner fn_body]. rewrite !declared_app, declared_outers, !declared_owns. cbn [app]. rewrite declared_cons, py_block_declared by reflexivity.
      cbn [declared flat_map]. now rewrite !app_nil_r. }
    assert (Hshape : forall x, In x (map snd (fn_params f)) -> x = s_ "value" \/ In x (map s_ ["ref"; "target"; "errors"]%string) \/ exists c, In c refs /\ x = py_registry c).
    { intros x Hx. rewrite En in Hx. cbn [app] in Hx. destruct Hx as [<-|Hx]; [now left|]. apply in_app_or in Hx as [Hx|Hx]; [|auto].
      apply in_map_iff in Hx as (c & <- & Hc). right. right. now exists c. }
    assert (Howned : forall x, own_names f x -> py_local x).
    { intros x Hx. apply own_declared in Hx as [Hx|Hx].
      - apply Hshape in Hx as [->|[Hx|(c & Hc & ->)]]; [left; cbn; tauto|left; cbn in *; tauto|right; left; exists c; split; [now apply HI|now left]].
      - rewrite Hdecl in Hx. apply in_app_or in Hx as [Hx|[<-|[]]]; [right; right; now apply (py_parse_numbered ps)|left; cbn; tauto]. }
    apply python_right_static; [exact Hnd| |].
    - intros [t x] Hx. cbn [snd]. assert (Hx' : In x (map snd (fn_params f))) by (apply in_map_iff; now exists (t, x)).
      apply Hshape in Hx' as [->|[Hx'|(c & Hc & ->)]]; [vm_compute; intuition discriminate| |apply registry_unreserved].
      cbn in Hx'. destruct Hx' as [<-|[<-|[<-|[]]]]; vm_compute; intuition discriminate.
    - cbn [f py_parse_inner fn_body]. fold f. apply outer_builtins; [exact Howned|vm_compute; reflexivity|].
      apply owns_known; [intros x Hx; apply Hlit; cbn in *; tauto|]. cbn [app].
      apply py_block_static; try assumption.
      + right. apply declared_assigns. rewrite Hdecl. apply in_or_app. right. now left.
      + intros x t Hx. apply start_keys, Hshape in Hx as [->|[Hx|(c & Hc & ->)]].
        * split; [reflexivity|lit].
        * cbn in Hx. destruct Hx as [<-|[<-|[<-|[]]]]; (split; [reflexivity|lit]).
        * split; [rewrite registry_last; reflexivity|apply registry_ends; reflexivity].
      + intros x Hx. apply Hlit. cbn in *; tauto.
      + intros m Hm. now apply (uses_properties ps).
      + intros e He. apply Hinner. apply in_or_app. right. now apply in_map.
      + intros p n c Hp Hn Hc. constructor; [|constructor]. destruct (Hreg c (HC p n c Hp Hn Hc)). eexists _, _. split; [reflexivity|]. left. split; assumption.
      + intros p n c Hp Hn Hc. constructor; [|constructor]. destruct (Hreg c (HE p n Hp Hn c Hc)). eexists _, _. split; [reflexivity|]. left. split; assumption.
      + reflexivity.
      + rewrite <- app_nil_r. apply owns_known; [|constructor]. intros x Hx. apply Hlit. cbn in *; tauto.
  Qed.

  Lemma py_parse_outer_right is_class name k ps : nth_error (composites g) k = Some ps -> k < root g ->
    In name (map c_name (g_classes g) ++ map e_name (g_embeds g)) ->
    python_right python37_keywords G (py_parse_outer py is_class name (references_of g k)).
  Proof.
    intros Hk Hroot Hn. destruct (references_of_spec g HR HN k ps Hk Hroot) as (HI & HD & _ & _).
    set (refs := references_of g k) in *. set (f := py_parse_outer py is_class name refs).
    set (ids := if is_class then ["id"%string] else []).
    assert (En : map snd (fn_params f) = map s_ ("value"%string :: ids) ++ map py_registry refs ++ map s_ ["ref"; "errors"]%string).
    { cbn [f py_parse_outer fn_params]. rewrite !map_app, map_map. unfold ids. destruct is_class; reflexivity. }
    assert (Hnd : NoDup (map snd (fn_params f))).
    { rewrite En. apply params_nodup; [| |exact HI|exact HD]; unfold ids; destruct is_class; [repeat constructor; vm_compute; intuition discriminate..|vm_compute; reflexivity|vm_compute; reflexivity]. }
    assert (Hparam : forall t x, In (t, x) (fn_params f) -> own_names f x /\ lookup x (start f) = Some t).
    { intros t x H. split; [left; apply in_map_iff; now exists (t, x)|now apply start_param]. }
    assert (Hreg : forall c, In c refs -> own_names f (py_registry c) /\ lookup (py_registry c) (start f) = Some (For "registry" (c_name c))).
    { intros c Hc. apply Hparam. cbn [f py_parse_outer fn_params]. apply in_or_app. right. apply in_or_app. right. apply in_or_app. left. apply in_map_iff. now exists c. }
    assert (Hlit : forall x, In x ("value" :: ids ++ ["ref"; "errors"])%string -> own_names f (s_ x) /\ lookup (s_ x) (start f) = Some (Own x)).
    { intros x Hx. apply Hparam. cbn [f py_parse_outer fn_params]. destruct Hx as [<-|Hx]; [now left|]. apply in_or_app. right.
      apply in_app_or in Hx as [Hx|Hx].
      - unfold ids in Hx. destruct is_class; [|destruct Hx]. destruct Hx as [<-|[]]. now left.
      - apply in_or_app. right. apply in_or_app. right. cbn in Hx. destruct Hx as [<-|[<-|[]]]; cbn; auto. }
    assert (Hdecl : declared (fn_body f) = [s_ "target"]).
    { cbn [f py_parse_outer fn_body]. rewrite !declared_app, !declared_owns.
      rewrite (declared_mentions (map mention_registry refs)) by (intros c Hc; apply in_map_iff in Hc as (d & <- & _); unfold mention_registry; eauto).
      destruct is_class; reflexivity. }
    assert (Hshape : forall x, In x (map snd (fn_params f)) -> In x (map s_ ["value"; "id"; "ref"; "errors"]%string) \/ exists c, In c refs /\ x = py_registry c).
    { intros x Hx. rewrite En in Hx. apply in_app_or in Hx as [Hx|Hx]; [left; unfold ids in Hx; destruct is_class; cbn in *; tauto|].
      apply in_app_or in Hx as [Hx|Hx]; [|left; cbn in *; tauto].
      apply in_map_iff in Hx as (c & <- & Hc). right. now exists c. }
    assert (Howned : forall x, own_names f x -> py_local x).
    { intros x Hx. apply own_declared in Hx as [Hx|Hx].
      - apply Hshape in Hx as [Hx|(c & Hc & ->)]; [left; cbn in *; tauto|right; left; exists c; split; [now apply HI|now left]].
      - rewrite Hdecl in Hx. left. cbn in *. tauto. }
    assert (Htarget : own_names f (s_ "target")).
    { right. apply declared_assigns. rewrite Hdecl. now left. }
    apply python_right_static; [exact Hnd| |].
    - intros [t x] Hx. cbn [snd]. assert (Hx' : In x (map snd (fn_params f))) by (apply in_map_iff; now exists (t, x)).
      apply Hshape in Hx' as [Hx'|(c & Hc & ->)]; [|apply registry_unreserved].
      cbn in Hx'. destruct Hx' as [<-|[<-|[<-|[<-|[]]]]]; vm_compute; intuition discriminate.
    - cbn [f py_parse_outer fn_body]. fold f. cbn [app]. apply (outer_pkg (own_names f) Howned).
      assert (Hrest : static python37_keywords G (own_names f) (start f)
        ([let_own "target"] ++ [outer (py_inner name); own "value"] ++ map mention_registry refs ++ owns ["ref"; "target"; "errors"]%string)).
      { cbn [app]. apply st_declare; [vm_compute; intuition discriminate|]. apply (outer_inner (own_names f) Howned); [exact Hn|].
        assert (Hskip : forall x t, own_names f x /\ lookup x (start f) = Some t -> x <> s_ "target" -> own_names f x /\ lookup x ((s_ "target", Own "target") :: start f) = Some t).
        { intros x t [H1 H2] H3. split; [exact H1|]. now rewrite lookup_skip. }
        change (own "value" :: map mention_registry refs ++ owns ["ref"; "target"; "errors"]%string) with (owns ["value"%string] ++ map mention_registry refs ++ owns ["ref"; "target"; "errors"]%string).
        apply owns_known; [intros x [<-|[]]; apply Hskip; [apply Hlit; now left|lit]|].
        apply static_mentions.
        - apply Forall_forall. intros m Hm. apply in_map_iff in Hm as (c & <- & Hc). eexists _, _. split; [reflexivity|]. left.
          apply Hskip; [now apply Hreg|apply registry_ends; reflexivity].
        - rewrite <- app_nil_r. apply owns_known; [|constructor]. intros x Hx. cbn in Hx. destruct Hx as [<-|[<-|[<-|[]]]].
          + apply Hskip; [apply Hlit; right; apply in_or_app; right; cbn; tauto|lit].
          + split; [exact Htarget|apply lookup_here].
          + apply Hskip; [apply Hlit; right; apply in_or_app; right; cbn; tauto|lit]. }
      destruct is_class; [|exact Hrest]. change ([own "id"] ++ ?l) with (owns ["id"%string] ++ l). apply owns_known; [|exact Hrest].
      intros x [<-|[]]. apply Hlit. right. now left.
  Qed.

  (** ** The graph *)
  Lemma py_allocate_declared c : declared (py_allocate py c) = [s_ "registry_value"; py_registry c; s_ "id"].
  Proof. unfold py_allocate. destruct (c_id_pattern c); reflexivity. Qed.
  Lemma py_fill_declared c : declared (py_fill c) = [s_ "registry_value"; s_ "id"; s_ "instance_value"; s_ "target_" ++ lower (c_name c)].
  Proof. reflexivity. Qed.
  Lemma py_parse_graph_declared : declared (fn_body (py_parse_graph py g)) =
    [s_ "graph"] ++ flat_map (fun c => [s_ "registry_value"; py_registry c; s_ "id"]) (g_classes g) ++
    flat_map (fun c => [s_ "registry_value"; s_ "id"; s_ "instance_value"; s_ "target_" ++ lower (c_name c)]) (g_classes g) ++
    py_parse_body (g_props g) ++ [s_ "err"].
  Proof.
    cbn [py_parse_graph fn_body]. rewrite !declared_app, !declared_owns, declared_outers, !declared_flat_map. cbn [app].
    rewrite !declared_cons, py_block_declared by reflexivity. cbn [declared_in outer let_own declared flat_map app].
    rewrite (flat_map_ext _ (fun c => [s_ "registry_value"; py_registry c; s_ "id"]) py_allocate_declared). now rewrite !app_nil_r.
  Qed.

  Lemma py_parse_graph_right : python_right python37_keywords G (py_parse_graph py g).
  Proof.
    set (f := py_parse_graph py g).
    assert (Hown : forall x, own_names f x <-> In x (map s_ ["value"; "ref"; "errors"]%string) \/ In x (declared (fn_body f))).
    { intros x. split; [intros [H|H]; [now left|right; now apply assigns_declared]|intros [H|H]; [now left|right; now apply declared_assigns]]. }
    assert (Hdecl := py_parse_graph_declared). fold f in Hdecl.
    assert (Hpart : forall c x, In c (g_classes g) -> In x [s_ "registry_value"; py_registry c; s_ "id"] \/
                      In x [s_ "registry_value"; s_ "id"; s_ "instance_value"; s_ "target_" ++ lower (c_name c)] -> own_names f x).
    { intros c x Hc Hx. apply Hown. right. rewrite Hdecl. apply in_or_app. right. apply in_or_app.
      destruct Hx as [Hx|Hx]; [left|right; apply in_or_app; left]; apply in_flat_map; now exists c. }
    assert (Howned : forall x, own_names f x -> py_local x).
    { intros x Hx. apply Hown in Hx as [Hx|Hx]; [left; cbn in *; tauto|]. rewrite Hdecl in Hx.
      apply in_app_or in Hx as [[<-|[]]|Hx]; [left; cbn; tauto|]. apply in_app_or in Hx as [Hx|Hx].
      { apply in_flat_map in Hx as (c & Hc & [<-|[<-|[<-|[]]]]); [left; cbn; tauto|right; left; exists c; tauto|left; cbn; tauto]. }
      apply in_app_or in Hx as [Hx|Hx].
      { apply in_flat_map in Hx as (c & Hc & [<-|[<-|[<-|[<-|[]]]]]); [left; cbn; tauto..|right; left; exists c; tauto]. }
      apply in_app_or in Hx as [Hx|[<-|[]]]; [right; right; now apply (py_parse_numbered (g_props g))|left; cbn; tauto]. }
    set (A1 := (s_ "graph", Own "graph") :: start f).
    assert (Hlit : forall x, In x ["value"; "ref"; "errors"; "graph"]%string -> own_names f (s_ x) /\ lookup (s_ x) A1 = Some (Own x)).
    { intros x Hx. split; [|cbn in Hx; destruct Hx as [<-|[<-|[<-|[<-|[]]]]]; reflexivity].
      apply Hown. cbn in Hx. destruct Hx as [<-|[<-|[<-|[<-|[]]]]]; [left; cbn; tauto..|]. right. rewrite Hdecl. now left. }
    assert (HA1 : forall x t, lookup x A1 = Some t -> In x (map s_ ["graph"; "value"; "ref"; "errors"]%string)).
    { intros x t H. apply lookup_In in H. cbn in H. destruct H as [H|[H|[H|[H|[]]]]]; injection H as <- _; cbn; tauto. }
    assert (Hknown : forall E x, (forall y, In y (map s_ ["graph"; "value"; "ref"; "errors"]%string) -> lookup y E = lookup y A1) ->
              In x ["value"; "ref"; "errors"; "graph"]%string -> own_names f (s_ x) /\ lookup (s_ x) E = Some (Own x)).
    { intros E x HE Hx. destruct (Hlit x Hx) as [H1 H2]. split; [exact H1|]. rewrite HE; [exact H2|]. cbn in Hx |- *. destruct Hx as [<-|[<-|[<-|[<-|[]]]]]; tauto. }
    set (ok := static python37_keywords G (own_names f)).
    assert (Hfree : forall x E l, free_text x = true -> In x G -> ok E l -> ok E (outer x :: l)).
    { intros x E l H1 H2 H3. apply st_outer; [|exact H2|exact H3]. intros H. apply Howned in H. now apply free_not_local in H1. }
    assert (Hmono : forall E l, (forall y, In y (map s_ ["graph"; "value"; "ref"; "errors"]%string) -> lookup y E = lookup y A1) -> ok A1 l -> ok E l).
    { intros E l HE Hl. apply (static_mono _ _ _ _ _ Hl). intros x t Hx. rewrite HE; [exact Hx|]. now apply (HA1 x t). }
    (* one registry *)
    assert (Halloc : forall c l, In c (g_classes g) -> ok A1 l -> ok A1 (py_allocate py c ++ l)).
    { intros c l Hc Hl. unfold py_allocate. cbn [app].
      assert (Hcoll : In mod_collections G).
      { apply (uses_graph mod_collections). unfold py_parse_graph_uses. apply in_or_app. right. apply in_or_app. left. apply in_flat_map. exists c. split; [exact Hc|now left]. }
      assert (Hrv : own_names f (s_ "registry_value")) by (apply (Hpart c); [exact Hc|left; cbn; tauto]).
      assert (Hid : own_names f (s_ "id")) by (apply (Hpart c); [exact Hc|left; cbn; tauto]).
      assert (Hrg : own_names f (py_registry c)) by (apply (Hpart c); [exact Hc|left; cbn; tauto]).
      apply (owns_known (own_names f) A1 ["value"%string]); [intros x [<-|[]]; apply Hlit; cbn; tauto|].
      apply st_declare; [vm_compute; intuition discriminate|].
      set (A2 := (s_ "registry_value", Own "registry_value") :: A1).
      assert (HA2 : forall y, In y (map s_ ["graph"; "value"; "ref"; "errors"]%string) -> lookup y A2 = lookup y A1).
      { intros y Hy. apply lookup_skip. intros ->. cbn in Hy. repeat (destruct Hy as [Hy|Hy]; [discriminate Hy|]). destruct Hy. }
      apply static_block.
      - intros x t Hx Hd. assert (Hx' : x = s_ "registry_value" \/ In x (map s_ ["graph"; "value"; "ref"; "errors"]%string)).
        { cbn [A2 lookup] in Hx. unfold A2 in Hx. cbn [lookup] in Hx. destruct (str_eqb x (s_ "registry_value")) eqn:E; [left; now apply str_eqb_eq|right; now apply (HA1 x t)]. }
        assert (Hd' : x = py_registry c \/ x = s_ "id").
        { revert Hd. destruct (c_id_pattern c); cbn; intuition. }
        assert (Hr : forall y, In y (map s_ ["registry_value"; "graph"; "value"; "ref"; "errors"]%string) -> ends (s_ "_registry") y = false /\ y <> s_ "id").
        { intros y Hy. cbn in Hy. repeat (destruct Hy as [<-|Hy]; [split; [reflexivity|lit]|]). destruct Hy. }
        destruct (Hr x) as [R1 R2]; [cbn in *; intuition|]. destruct Hd' as [->| ->]; [now apply (registry_ends c _ R1)|now apply R2].
      - change (own "registry_value" :: ?l) with (owns ["registry_value"%string] ++ l).
        apply (owns_known _ A2 ["registry_value"; "errors"; "ref"]%string).
        { intros x [<-|Hx]; [split; [exact Hrv|apply lookup_here]|]. apply Hknown; [exact HA2|cbn in *; tauto]. }
        apply (outer_builtins _ Howned _ ["isinstance"; "dict"; "type"]%string); [vm_compute; reflexivity|].
        apply Hfree; [vm_compute; reflexivity|exact Hcoll|].
        apply (owns_known _ A2 ["graph"]%string); [intros x Hx; apply Hknown; [exact HA2|cbn in *; tauto]|].
        apply st_declare; [apply registry_unreserved|]. set (A3 := (py_registry c, For "registry" (c_name c)) :: A2).
        assert (HA3 : forall y, ends (s_ "_registry") y = false -> lookup y A3 = lookup y A2).
        { intros y Hy. apply lookup_skip. intros E. symmetry in E. now apply (registry_ends c y). }
        assert (HA3' : forall y, In y (map s_ ["graph"; "value"; "ref"; "errors"]%string) -> lookup y A3 = lookup y A1).
        { intros y Hy. rewrite HA3; [now apply HA2|]. cbn in Hy. repeat (destruct Hy as [<-|Hy]; [reflexivity|]). destruct Hy. }
        apply st_own; [exact Hrv|rewrite HA3 by reflexivity; apply lookup_here|].
        apply static_block; [| |constructor].
        + intros x t Hx Hd. assert (Hd' : x = s_ "id") by (revert Hd; destruct (c_id_pattern c); cbn; intuition). subst x.
          unfold A3 in Hx. rewrite lookup_skip in Hx by (intros E; symmetry in E; revert E; apply registry_ends; reflexivity). cbv in Hx. discriminate.
        + apply st_declare; [vm_compute; intuition discriminate|]. set (A4 := (s_ "id", Own "id") :: A3).
          assert (HA4 : forall y, y <> s_ "id" -> lookup y A4 = lookup y A3) by (intros y Hy; now apply lookup_skip).
          assert (HA4' : forall y, In y (map s_ ["graph"; "value"; "ref"; "errors"]%string) -> lookup y A4 = lookup y A1).
          { intros y Hy. rewrite HA4; [now apply HA3'|]. intros ->. cbn in Hy. repeat (destruct Hy as [Hy|Hy]; [discriminate Hy|]). destruct Hy. }
          assert (Hend : ok A4 [own "id"; outer pkg; mention_registry c]).
          { apply st_own; [exact Hid|apply lookup_here|]. apply (outer_pkg _ Howned). apply st_own; [exact Hrg| |constructor].
            rewrite HA4 by (apply registry_ends; reflexivity). apply lookup_here. }
          destruct (c_id_pattern c) eqn:Ep; [|exact Hend].
          apply Hfree; [vm_compute; reflexivity| |].
          { apply (uses_graph mod_re). unfold py_parse_graph_uses. apply in_or_app. right. apply in_or_app. left. apply in_flat_map. exists c. split; [exact Hc|]. rewrite Ep. cbn; tauto. }
          apply st_own; [exact Hid|apply lookup_here|].
          apply (owns_known _ A4 ["errors"; "ref"]%string); [intros x Hx; apply Hknown; [exact HA4'|cbn in *; tauto]|exact Hend].
      - apply (owns_known _ A2 ["errors"]%string); [intros x Hx; apply Hknown; [exact HA2|cbn in *; tauto]|]. now apply Hmono. }
    assert (Hfill : forall c l, In c (g_classes g) -> ok A1 l -> ok A1 (py_fill c ++ l)).
    { intros c l Hc Hl. unfold py_fill. cbn [app]. set (T := s_ "target_" ++ lower (c_name c)).
      assert (HT : forall y, begins (s_ "target_") y = false -> y <> T) by (intros y Hy ->; unfold T in Hy; now rewrite begins_app in Hy).
      assert (Hrv : own_names f (s_ "registry_value")) by (apply (Hpart c); [exact Hc|left; cbn; tauto]).
      assert (Hid : own_names f (s_ "id")) by (apply (Hpart c); [exact Hc|left; cbn; tauto]).
      assert (Hiv : own_names f (s_ "instance_value")) by (apply (Hpart c); [exact Hc|right; cbn; tauto]).
      assert (HTo : own_names f T) by (apply (Hpart c); [exact Hc|right; cbn; tauto]).
      assert (HTk : ~ In T python37_keywords).
      { intros H. assert (K : forallb (fun k => negb (begins (s_ "target_") k)) python37_keywords = true) by (vm_compute; reflexivity).
        rewrite forallb_forall in K. apply K in H. unfold T in H. now rewrite begins_app in H. }
      assert (Hset : forall x, In x (map s_ ["graph"; "value"; "ref"; "errors"]%string) -> begins (s_ "target_") x = false /\ ~ In x (map s_ ["registry_value"; "id"; "instance_value"]%string)).
      { intros x Hx. cbn in Hx. repeat (destruct Hx as [<-|Hx]; [split; [reflexivity|vm_compute; intuition discriminate]|]). destruct Hx. }
      apply (owns_known _ A1 ["value"]%string); [intros x Hx; apply Hlit; cbn in *; tauto|].
      apply static_block; [|  |exact Hl].
      - intros x t Hx Hd. apply HA1, Hset in Hx as [H1 H2]. cbn in Hd. destruct Hd as [Hd|[Hd|[Hd|[Hd|[]]]]]; [apply H2; cbn; tauto..|now apply (HT x H1)].
      - apply (owns_known _ A1 ["value"]%string); [intros x Hx; apply Hlit; cbn in *; tauto|].
        apply st_declare; [vm_compute; intuition discriminate|]. apply st_own; [exact Hrv|apply lookup_here|].
        set (A2 := (s_ "registry_value", Own "registry_value") :: A1).
        assert (HA2 : forall y, In y (map s_ ["graph"; "value"; "ref"; "errors"]%string) -> lookup y A2 = lookup y A1).
        { intros y Hy. apply lookup_skip. intros ->. apply Hset in Hy as [_ Hy]. apply Hy. cbn. tauto. }
        apply st_block with (B := A1); [| |constructor].
        + intros x t Hx. assert (Hx' := HA1 x t Hx). split; [now rewrite HA2|]. apply Hset in Hx' as [H1 H2]. intros Hd. cbn in Hd.
          destruct Hd as [Hd|[Hd|[Hd|[]]]]; [apply H2; cbn; tauto..|now apply (HT x H1)].
        + apply st_declare; [vm_compute; intuition discriminate|]. apply st_declare; [vm_compute; intuition discriminate|].
          set (A3 := (s_ "instance_value", Own "instance_value") :: (s_ "id", Own "id") :: A1).
          assert (HA3 : forall y, In y (map s_ ["graph"; "value"; "ref"; "errors"]%string) -> lookup y A3 = lookup y A1).
          { intros y Hy. apply Hset in Hy as [_ Hy]. unfold A3. rewrite !lookup_skip; [reflexivity|intros ->; apply Hy; cbn; tauto..]. }
          apply (owns_known _ A3 ["graph"]%string); [intros x Hx; apply Hknown; [exact HA3|cbn in *; tauto]|].
          apply st_own; [exact Hid|reflexivity|]. apply st_declare; [exact HTk|]. fold A3. set (A4 := (T, For "target" (c_name c)) :: A3).
          assert (HA4 : forall y, begins (s_ "target_") y = false -> lookup y A4 = lookup y A3) by (intros y Hy; apply lookup_skip; now apply HT).
          assert (HA4' : forall y, In y (map s_ ["graph"; "value"; "ref"; "errors"]%string) -> lookup y A4 = lookup y A1).
          { intros y Hy. rewrite HA4; [now apply HA3|]. now apply Hset. }
          apply st_own; [exact Hid|now rewrite HA4|]. apply st_own; [exact HTo|apply lookup_here|].
          apply (outer_inner _ Howned); [apply in_or_app; left; now apply in_map|].
          apply st_own; [exact Hiv|now rewrite HA4|].
          apply (owns_known _ A4 ["graph"; "ref"]%string); [intros x Hx; apply Hknown; [exact HA4'|cbn in *; tauto]|].
          apply (outer_builtins _ Howned _ ["repr"]%string); [vm_compute; reflexivity|].
          apply st_own; [exact Hid|now rewrite HA4|]. apply st_own; [exact HTo|apply lookup_here|].
          apply (owns_known _ A4 ["errors"]%string); [intros x Hx; apply Hknown; [exact HA4'|cbn in *; tauto]|constructor]. }
    assert (Hmap : forall (h : cls -> list code) cs l, (forall c l, In c (g_classes g) -> ok A1 l -> ok A1 (h c ++ l)) -> incl cs (g_classes g) -> ok A1 l -> ok A1 (flat_map h cs ++ l)).
    { intros h cs l Hh. induction cs as [|c cs IH]; intros Hi Hl; [exact Hl|]. cbn [flat_map]. rewrite <- app_assoc. apply Hh; [apply Hi; now left|].
      apply IH; [|exact Hl]. intros d Hd. apply Hi. now right. }
    apply python_right_static.
    - cbn. repeat constructor; cbn; intuition discriminate.
    - intros [t x] [H|[H|[H|[]]]]; injection H as <- <-; vm_compute; intuition discriminate.
    - cbn [f py_parse_graph fn_body]. fold f. apply owns_known.
      { intros x Hx. split; [apply Hlit; cbn in *; tauto|]. cbn in Hx. destruct Hx as [<-|[<-|[<-|[]]]]; reflexivity. }
      apply (outer_builtins _ Howned); [vm_compute; reflexivity|]. cbn [app]. apply (outer_pkg _ Howned).
      apply st_declare; [vm_compute; intuition discriminate|]. fold A1.
      apply Hmap; [exact Halloc|intros c Hc; exact Hc|]. apply owns_known; [intros x Hx; apply Hlit; cbn in *; tauto|].
      apply Hmap; [exact Hfill|intros c Hc; exact Hc|]. cbn [app].
      assert (Hps : In (g_props g) (composites g)) by (unfold composites; apply in_or_app; right; apply in_or_app; right; now left).
      apply py_block_static; try assumption.
      + apply Hown. right. rewrite Hdecl. do 4 (apply in_or_app; right). now left.
      + intros x t Hx. apply HA1 in Hx. cbn in Hx. repeat (destruct Hx as [<-|Hx]; [split; [reflexivity|lit]|]). destruct Hx.
      + intros x Hx. apply Hlit. cbn in *; tauto.
      + intros m Hm. now apply (uses_properties (g_props g)).
      + intros e He. apply Hinner. apply in_or_app. right. now apply in_map.
      + intros p n c Hp Hn Hc. constructor; [|constructor]. destruct (Hlit "graph"%string); [cbn; tauto|]. eexists _, _. split; [reflexivity|]. left. split; assumption.
      + intros p n c Hp Hn Hc. constructor; [|constructor]. destruct (Hlit "graph"%string); [cbn; tauto|]. eexists _, _. split; [reflexivity|]. left. split; assumption.
      + reflexivity.
      + rewrite <- app_nil_r. apply owns_known; [|constructor]. intros x Hx. apply Hlit. cbn in *; tauto.
  Qed.
End Python.

(** * Serialization *)

Section Serialize.
  Variable py : py_conf.
  Variable g : graph.
  Hypothesis HR : resolved g.
  Hypothesis Hapart : forall c, In c (g_classes g) ->
    s_ "target_" ++ lower (c_plural c) <> lower (c_name c) ++ s_ "_instance" /\
    forall n, In n (structure_names g) -> lower (c_name c) ++ s_ "_instance" <> s_ "serialize_" ++ lower n.

  Definition ser_locals : list str := map s_ ["instance"; "ordered"; "target"; "id"]%string.
  Definition ser_local (x : str) : Prop :=
    In x ser_locals \/
    (exists c, In c (g_classes g) /\ (x = s_ "target_" ++ lower (c_plural c) \/ x = lower (c_name c) ++ s_ "_instance")) \/
    numbered py_serialize_stems x.
  Definition ser_free (x : str) : bool :=
    negb (mem x ser_locals) && negb (ends (s_ "_instance") x) && negb (begins (s_ "target_") x) && negb (is_digit (last_char x)).
  Lemma ser_free_not_local x : ser_free x = true -> ~ ser_local x.
  Proof.
    unfold ser_free. rewrite !andb_true_iff, !negb_true_iff. intros (((H1 & H2) & H3) & H4) [H|[(c & _ & [->| ->])|H]].
    - apply mem_In in H. congruence.
    - now rewrite begins_app in H3.
    - now rewrite ends_app in H2.
    - apply numbered_last in H. congruence.
  Qed.
  Lemma serialize_not_local n : In n (structure_names g) -> ~ ser_local (py_serialize n).
  Proof.
    intros Hn [H|[(c & Hc & [H|H])|(stem & k & Hs & H)]].
    - cbn in H. repeat (destruct H as [H|H]; [discriminate H|]). destruct H.
    - discriminate H.
    - destruct (Hapart c Hc) as [_ A]. apply (A n Hn). now symmetry.
    - cbn in Hs. repeat (destruct Hs as [<-|Hs]; [discriminate H|]). destruct Hs.
  Qed.

  Variable G : list str.
  Hypothesis Hbuiltins : incl python_builtins G.
  Hypothesis Hcollections : In mod_collections G.
  Hypothesis Hduration : graph_needs g (KPrim PDuration) = true -> In (s_ "_duration_to_string") G.
  Hypothesis Hserialize : forall n, In n (structure_names g) -> In (py_serialize n) G.

  Lemma py_ser_mentions_declared t : declared (py_serialize_mentions t) = [].
  Proof.
    apply declared_mentions. intros c Hc. unfold py_serialize_mentions in Hc.
    repeat (apply in_app_or in Hc as [Hc|Hc]); try (apply in_map_iff in Hc as (x & <- & _); unfold own, outer; eauto).
    destruct (has_duration t); [|destruct Hc]. destruct Hc as [<-|[]]. unfold outer. eauto.
  Qed.
  Lemma py_ser_block_declared ps : declared_in (py_serialize_block py ps) = py_serialize_body (py_settings_of py) ps.
  Proof.
    unfold py_serialize_block. rewrite declared_block, !declared_app, declared_autos, declared_flat_map. cbn [own declared declared_in flat_map app].
    replace (flat_map _ ps) with (@nil str); [now rewrite app_nil_r|]. symmetry.
    induction ps as [|p ps IH]; [reflexivity|]. cbn [flat_map]. now rewrite IH, py_ser_mentions_declared.
  Qed.

  Section Block.
    Variable owned : str -> Prop.
    Variable ps : list prop.
    Hypothesis Hps : In ps (composites g).
    Hypothesis Howned : forall x, owned x -> ser_local x.
    Definition A1 : list (str * thing) := [(s_ "target", Own "target"); (s_ "instance", Own "instance"); (s_ "ordered", Own "ordered")].
    Hypothesis Hfixed : forall x, In x ["instance"; "ordered"; "target"]%string -> owned (s_ x).

    Lemma ser_owns E xs l : (forall x, In x (map s_ xs) -> lookup x E = lookup x A1) -> incl xs ["instance"; "ordered"; "target"]%string ->
      static python37_keywords G owned E l -> static python37_keywords G owned E (owns xs ++ l).
    Proof.
      intros HE Hi Hl. apply owns_known; [|exact Hl]. intros x Hx. split; [apply Hfixed; now apply Hi|]. rewrite HE by (now apply in_map).
      apply Hi in Hx. cbn in Hx. destruct Hx as [<-|[<-|[<-|[]]]]; reflexivity.
    Qed.
    Lemma ser_outer E x l : ser_free x = true -> In x G -> static python37_keywords G owned E l -> static python37_keywords G owned E (outer x :: l).
    Proof. intros H1 H2 H3. apply st_outer; [|exact H2|exact H3]. intros H. apply Howned in H. now apply ser_free_not_local in H1. Qed.
    Lemma ser_builtins E xs l : forallb (fun x => ser_free (s_ x) && mem (s_ x) python_builtins) xs = true ->
      static python37_keywords G owned E l -> static python37_keywords G owned E (outers xs ++ l).
    Proof.
      induction xs as [|x xs IH]; intros Hx Hl; [exact Hl|]. cbn [forallb] in Hx. apply andb_true_iff in Hx as [Hx Hxs].
      apply andb_true_iff in Hx as [H1 H2]. cbn. apply ser_outer; [exact H1|apply Hbuiltins; now apply mem_In|now apply IH].
    Qed.
    Lemma ser_serialize E n l : In n (structure_names g) -> static python37_keywords G owned E l -> static python37_keywords G owned E (outer (py_serialize n) :: l).
    Proof. intros Hn Hl. apply st_outer; [|now apply Hserialize|exact Hl]. intros H. apply Howned in H. now apply (serialize_not_local n). Qed.

    Lemma ser_mentions E p l : In p ps -> (forall x, In x (map s_ ["instance"]%string) -> lookup x E = lookup x A1) ->
      static python37_keywords G owned E l -> static python37_keywords G owned E (py_serialize_mentions (p_type p) ++ l).
    Proof.
      intros Hp HE Hl. unfold py_serialize_mentions. rewrite <- !app_assoc. apply ser_builtins; [vm_compute; reflexivity|].
      apply ser_owns; [exact HE|intros x [<-|[]]; cbn; tauto|].
      assert (H1 : forall u m, In m (py_serialize_uses u) -> m = mod_collections).
      { intros u. induction u; cbn [py_serialize_uses]; intros m Hm; try (destruct Hm; fail); auto. destruct Hm as [<-|Hm]; auto. }
      specialize (H1 (p_type p)). induction (py_serialize_uses (p_type p)) as [|m ms IH]; cbn [map app].
      - assert (H2 : static python37_keywords G owned E (map (fun n => outer (py_serialize n)) (embeds_in (p_type p)) ++ l)).
        { assert (Ht : ty_resolved g (p_type p)) by (now apply (HR ps)).
          assert (He : forall n, In n (embeds_in (p_type p)) -> In n (structure_names g)).
          { clear - Ht. induction (p_type p); cbn [embeds_in ty_resolved] in *; intros m Hm; try (destruct Hm; fail); auto.
            destruct Hm as [<-|[]]. apply find_embed_name in Ht. unfold structure_names. right. apply in_or_app. now right. }
          clear - He Hl Howned Hapart Hserialize. induction (embeds_in (p_type p)) as [|n ns IH]; [exact Hl|]. cbn [map app]. apply ser_serialize; [apply He; now left|].
          apply IH. intros m Hm. apply He. now right. }
        destruct (has_duration (p_type p)) eqn:Ed; [|exact H2]. apply ser_outer; [vm_compute; reflexivity| |exact H2].
        apply Hduration. now apply (has_duration_needed g HR ps Hps p).
      - rewrite (H1 m (or_introl eq_refl)). apply ser_outer; [vm_compute; reflexivity|exact Hcollections|]. apply IH. intros m' Hm'. apply H1. now right.
    Qed.

    Lemma ser_block l : static python37_keywords G owned A1 l -> static python37_keywords G owned A1 (py_serialize_block py ps :: l).
    Proof.
      intros Hl. unfold py_serialize_block. apply static_block; [| |exact Hl].
      - intros x t Hx Hd. rewrite <- declared_block in Hd. change (Block _) with (py_serialize_block py ps) in Hd.
        rewrite py_ser_block_declared in Hd. apply py_serialize_numbered, numbered_last in Hd.
        apply lookup_In in Hx. cbn in Hx. destruct Hx as [H|[H|[H|[]]]]; injection H as <- _; discriminate Hd.
      - apply static_autos.
        + intros x Hx. apply py_serialize_numbered in Hx. split; [now apply (numbered_unreserved py_serialize_stems)|].
          destruct (lookup x A1) as [t|] eqn:E; [|reflexivity]. apply numbered_last in Hx.
          apply lookup_In in E. cbn in E. destruct E as [H|[H|[H|[]]]]; injection H as <- _; discriminate Hx.
        + assert (HI : incl ps ps) by (intros p Hp; exact Hp). revert HI. generalize ps at 1 3. intros qs. induction qs as [|q qs IH]; intros HI; cbn [flat_map app].
          * apply (ser_owns A1 ["target"]%string []); [reflexivity|intros x [<-|[]]; cbn; tauto|constructor].
          * rewrite <- app_assoc. apply ser_mentions; [apply HI; now left|reflexivity|]. apply IH. intros p Hp. apply HI. now right.
    Qed.
  End Block.

  Lemma ser_head (owned : str -> Prop) l : (forall x, owned x -> ser_local x) -> (forall x, In x ["instance"; "ordered"; "target"]%string -> owned (s_ x)) ->
    static python37_keywords G owned A1 l ->
    static python37_keywords G owned [(s_ "instance", Own "instance"); (s_ "ordered", Own "ordered")]
      (own "ordered" :: outer mod_collections :: outer (s_ "dict") :: let_own "target" :: l).
  Proof.
    intros Ho Hf Hl. apply st_own; [apply Hf; cbn; tauto|reflexivity|]. apply ser_outer; [exact Ho|vm_compute; reflexivity|exact Hcollections|].
    apply (ser_builtins owned Ho _ ["dict"]%string); [vm_compute; reflexivity|]. apply st_declare; [vm_compute; intuition discriminate|]. exact Hl.
  Qed.

  Lemma py_serializer_right ps : In ps (composites g) -> python_right python37_keywords G (py_serializer py ps).
  Proof.
    intros Hps. set (f := py_serializer py ps).
    assert (Hdecl : declared (fn_body f) = s_ "target" :: py_serialize_body (py_settings_of py) ps).
    { cbn [f py_serializer fn_body]. rewrite !declared_cons, py_ser_block_declared. cbn [own outer let_own declared_in declared flat_map app]. now rewrite app_nil_r. }
    assert (Howned : forall x, own_names f x -> ser_local x).
    { intros x Hx. apply own_declared in Hx as [Hx|Hx]; [left; cbn in *; tauto|]. rewrite Hdecl in Hx. destruct Hx as [<-|Hx]; [left; cbn; tauto|].
      right. right. now apply (py_serialize_numbered (py_settings_of py) ps). }
    assert (Hfixed : forall x, In x ["instance"; "ordered"; "target"]%string -> own_names f (s_ x)).
    { intros x Hx. cbn in Hx. destruct Hx as [<-|[<-|[<-|[]]]]; [left; cbn; tauto..|]. right. apply declared_assigns. rewrite Hdecl. now left. }
    apply python_right_static.
    - cbn. repeat constructor; cbn; intuition discriminate.
    - intros [t x] [H|[H|[]]]; injection H as <- <-; vm_compute; intuition discriminate.
    - cbn [f py_serializer fn_body]. fold f. apply ser_head; [exact Howned|exact Hfixed|]. apply ser_block; try assumption.
      apply (ser_owns (own_names f) Hfixed A1 ["target"]%string []); [reflexivity|intros x [<-|[]]; cbn; tauto|constructor].
  Qed.

  Lemma py_serialize_graph_right : python_right python37_keywords G (py_serialize_graph py g).
  Proof.
    set (f := py_serialize_graph py g).
    assert (Hps : In (g_props g) (composites g)) by (unfold composites; apply in_or_app; right; apply in_or_app; right; now left).
    assert (Hdecl : declared (fn_body f) = s_ "target" :: py_serialize_body (py_settings_of py) (g_props g) ++
              flat_map (fun c => [s_ "target_" ++ lower (c_plural c); s_ "id"; lower (c_name c) ++ s_ "_instance"]) (g_classes g)).
    { cbn [f py_serialize_graph fn_body]. rewrite !declared_app, !declared_cons, py_ser_block_declared, declared_flat_map.
      cbn [own outer let_own declared_in declared flat_map app]. rewrite !app_nil_r. reflexivity. }
    assert (Howned : forall x, own_names f x -> ser_local x).
    { intros x Hx. apply own_declared in Hx as [Hx|Hx]; [left; cbn in *; tauto|]. rewrite Hdecl in Hx. destruct Hx as [<-|Hx]; [left; cbn; tauto|].
      apply in_app_or in Hx as [Hx|Hx]; [right; right; now apply (py_serialize_numbered (py_settings_of py) (g_props g))|].
      apply in_flat_map in Hx as (c & Hc & [<-|[<-|[<-|[]]]]); [right; left; exists c; tauto|left; cbn; tauto|right; left; exists c; tauto]. }
    assert (Hfixed : forall x, In x ["instance"; "ordered"; "target"]%string -> own_names f (s_ x)).
    { intros x Hx. cbn in Hx. destruct Hx as [<-|[<-|[<-|[]]]]; [left; cbn; tauto..|]. right. apply declared_assigns. rewrite Hdecl. now left. }
    assert (Hpart : forall c x, In c (g_classes g) -> In x [s_ "target_" ++ lower (c_plural c); s_ "id"; lower (c_name c) ++ s_ "_instance"] -> own_names f x).
    { intros c x Hc Hx. right. apply declared_assigns. rewrite Hdecl. right. apply in_or_app. right. apply in_flat_map. now exists c. }
    assert (Hreg : forall c l, In c (g_classes g) -> static python37_keywords G (own_names f) A1 l ->
              static python37_keywords G (own_names f) A1 (py_serialize_registry c ++ l)).
    { intros c l Hc Hl. unfold py_serialize_registry. set (T := s_ "target_" ++ lower (c_plural c)). set (I := lower (c_name c) ++ s_ "_instance").
      assert (HT : forall y, begins (s_ "target_") y = false -> y <> T) by (intros y Hy ->; unfold T in Hy; now rewrite begins_app in Hy).
      assert (HI : forall y, ends (s_ "_instance") y = false -> y <> I) by (intros y Hy ->; unfold I in Hy; now rewrite ends_app in Hy).
      assert (HTk : ~ In T python37_keywords).
      { intros H. assert (K : forallb (fun k => negb (begins (s_ "target_") k)) python37_keywords = true) by (vm_compute; reflexivity).
        rewrite forallb_forall in K. apply K in H. unfold T in H. now rewrite begins_app in H. }
      assert (HIk : ~ In I python37_keywords).
      { intros H. assert (K : forallb (fun k => negb (ends (s_ "_instance") k)) python37_keywords = true) by (vm_compute; reflexivity).
        rewrite forallb_forall in K. apply K in H. unfold I in H. now rewrite ends_app in H. }
      assert (HTI : T <> I) by (now apply Hapart).
      assert (HTo : own_names f T) by (apply (Hpart c); [exact Hc|cbn; tauto]).
      assert (HIo : own_names f I) by (apply (Hpart c); [exact Hc|cbn; tauto]).
      assert (Hid : own_names f (s_ "id")) by (apply (Hpart c); [exact Hc|cbn; tauto]).
      assert (Hset : forall x t, lookup x A1 = Some t -> begins (s_ "target_") x = false /\ ends (s_ "_instance") x = false /\ x <> s_ "id").
      { intros x t Hx. apply lookup_In in Hx. cbn in Hx. destruct Hx as [H|[H|[H|[]]]]; injection H as <- _; (split; [reflexivity|split; [reflexivity|lit]]). }
      cbn [app]. apply (ser_builtins _ Howned _ ["len"]%string); [vm_compute; reflexivity|].
      apply (ser_owns _ Hfixed A1 ["instance"]%string); [reflexivity|intros x [<-|[]]; cbn; tauto|].
      apply static_block; [| |exact Hl].
      - intros x t Hx Hd. apply Hset in Hx as (H1 & H2 & H3). cbn in Hd. destruct Hd as [Hd|[Hd|[Hd|[]]]]; [now apply (HT x H1)|now apply H3|now apply (HI x H2)].
      - apply (ser_owns _ Hfixed A1 ["ordered"]%string); [reflexivity|intros x [<-|[]]; cbn; tauto|].
        apply ser_outer; [exact Howned|vm_compute; reflexivity|exact Hcollections|].
        apply (ser_builtins _ Howned _ ["dict"]%string); [vm_compute; reflexivity|].
        apply st_declare; [exact HTk|]. set (A2 := (T, For "target" (c_name c)) :: A1).
        assert (HA2 : forall y, begins (s_ "target_") y = false -> lookup y A2 = lookup y A1) by (intros y Hy; apply lookup_skip; now apply HT).
        apply (ser_owns _ Hfixed A2 ["instance"]%string); [intros x [<-|[]]; now apply HA2|intros x [<-|[]]; cbn; tauto|].
        apply static_block.
        + intros x t Hx Hd. cbn in Hd. unfold A2 in Hx. cbn [lookup] in Hx. destruct (str_eqb x T) eqn:E.
          * apply str_eqb_eq in E as ->. destruct Hd as [Hd|[Hd|[]]]; [|now apply HTI]. revert Hd. apply HT. reflexivity.
          * apply Hset in Hx as (H1 & H2 & H3). destruct Hd as [Hd|[Hd|[]]]; [now apply H3|now apply (HI x H2)].
        + apply st_declare; [vm_compute; intuition discriminate|]. apply st_declare; [exact HIk|].
          set (A3 := (I, For "instance" (c_name c)) :: (s_ "id", Own "id") :: A2).
          assert (L1 : lookup (s_ "id") A3 = Some (Own "id")) by (unfold A3; rewrite lookup_skip by (apply HI; reflexivity); apply lookup_here).
          assert (L2 : lookup I A3 = Some (For "instance" (c_name c))) by (apply lookup_here).
          assert (L3 : lookup T A3 = Some (For "target" (c_name c))).
          { unfold A3. rewrite lookup_skip by exact HTI. rewrite lookup_skip; [apply lookup_here|]. intros E. symmetry in E. revert E. apply HT. reflexivity. }
          apply st_own; [exact Hid|exact L1|]. apply st_own; [exact HIo|exact L2|].
          apply (ser_builtins _ Howned _ ["ValueError"]%string); [vm_compute; reflexivity|].
          apply st_own; [exact HTo|exact L3|]. apply st_own; [exact Hid|exact L1|].
          apply ser_serialize; [exact Howned|unfold structure_names; right; apply in_or_app; left; now apply in_map|].
          apply st_own; [exact HIo|exact L2|].
          apply (ser_owns _ Hfixed A3 ["ordered"]%string []); [|intros x [<-|[]]; cbn; tauto|constructor].
          intros x [<-|[]]. unfold A3. rewrite !lookup_skip; [now apply HA2|lit|apply HI; reflexivity].
        + apply (ser_owns _ Hfixed A2 ["target"]%string); [intros x [<-|[]]; now apply HA2|intros x [<-|[]]; cbn; tauto|].
          apply st_own; [exact HTo|apply lookup_here|constructor]. }
    apply python_right_static.
    - cbn. repeat constructor; cbn; intuition discriminate.
    - intros [t x] [H|[H|[]]]; injection H as <- <-; vm_compute; intuition discriminate.
    - cbn [f py_serialize_graph fn_body]. fold f. cbn [app]. apply ser_head; [exact Howned|exact Hfixed|]. apply ser_block; try assumption.
      assert (HI : incl (g_classes g) (g_classes g)) by (intros c Hc; exact Hc). revert HI. generalize (g_classes g) at 1 3. intros cs.
      induction cs as [|c cs IH]; intros HI; cbn [flat_map app].
      + apply (ser_owns (own_names f) Hfixed A1 ["target"]%string []); [reflexivity|intros x [<-|[]]; cbn; tauto|constructor].
      + rewrite <- app_assoc. apply Hreg; [apply HI; now left|]. apply IH. intros d Hd. apply HI. now right.
  Qed.
End Serialize.

(** * The sources *)

Lemma combine_seq_nth {A} (l : list A) : forall k n x i, In (x, i) (combine l (List.seq k n)) -> exists j, i = k + j /\ nth_error l j = Some x.
Proof.
  induction l as [|y l IH]; intros k [|n] x i; cbn [List.seq combine]; try (intros []).
  - injection H as <- <-. exists 0. split; [lia|reflexivity].
  - apply IH in H as (j & -> & H). exists (S j). split; [lia|exact H].
Qed.

Lemma flat_pairs_nodup {A} (f h : A -> str) (l : list A) :
  (forall a b, In a l -> In b l -> f a <> h b) -> NoDup (map f l) -> NoDup (map h l) -> NoDup (flat_map (fun a => [f a; h a]) l).
Proof.
  induction l as [|a l IH]; intros Hd Hf Hh; [constructor|]. cbn [flat_map app map] in *.
  inversion Hf as [|? ? Hf1 Hf2]; subst. inversion Hh as [|? ? Hh1 Hh2]; subst.
  assert (IH' : NoDup (flat_map (fun a => [f a; h a]) l)) by (apply IH; [intros x y Hx Hy; apply Hd; now right|assumption..]).
  constructor; [|constructor; [|exact IH']].
  - intros [H|H]; [symmetry in H; revert H; apply Hd; now left|]. apply in_flat_map in H as (b & Hb & [H|[H|[]]]).
    + apply Hf1. rewrite <- H. now apply in_map.
    + symmetry in H. revert H. apply Hd; [now left|now right].
  - intros H. apply in_flat_map in H as (b & Hb & [H|[H|[]]]).
    + revert H. apply Hd; [now right|now left].
    + apply Hh1. rewrite <- H. now apply in_map.
Qed.
Lemma flat_map_map {A B C} (f : A -> B) (h : B -> list C) l : flat_map h (map f l) = flat_map (fun a => h (f a)) l.
Proof. induction l as [|a l IH]; [reflexivity|]. cbn. now rewrite IH. Qed.

Section Defined.
  Variable g : graph.
  Hypothesis Hname : forall n, In n (structure_names g) -> capital_name n.
  Hypothesis HNlower : NoDup (map lower (structure_names g)).
  Let parts : list str := map c_name (g_classes g) ++ map e_name (g_embeds g).

  Lemma parts_lower : NoDup (map lower parts) /\ ~ In (lower (g_name g)) (map lower parts) /\ forall n, In n parts -> capital_name n.
  Proof.
    unfold structure_names in *. cbn [map] in HNlower. inversion HNlower; subst. split; [assumption|]. split; [assumption|].
    intros n Hn. apply Hname. now right.
  Qed.
  Lemma map_wrap_nodup (f : str -> str) l : (forall a b, f a = f b -> lower a = lower b) -> NoDup (map lower l) -> NoDup (map f l).
  Proof.
    intros Hf. induction l as [|a l IH]; intros H; [constructor|]. cbn [map] in *. inversion H as [|? ? H1 H2]; subst. constructor; [|now apply IH].
    intros Hin. apply in_map_iff in Hin as (b & E & Hb). apply H1. rewrite <- (Hf _ _ E). now apply in_map.
  Qed.
  Lemma py_from_inj a b : py_from a = py_from b -> lower a = lower b.
  Proof. unfold py_from. apply app_inv_tail. Qed.
  Lemma py_inner_inj a b : py_inner a = py_inner b -> lower a = lower b.
  Proof. unfold py_inner. intros H. apply app_inv_head in H. now apply app_inv_tail in H. Qed.
  Lemma py_serialize_inj a b : py_serialize a = py_serialize b -> lower a = lower b.
  Proof. unfold py_serialize. apply app_inv_head. Qed.
  Lemma py_placeholder_inj a b : py_placeholder a = py_placeholder b -> lower a = lower b.
  Proof. unfold py_placeholder. apply app_inv_head. Qed.
  Lemma inner_not_from a b : capital_name b -> py_inner a <> py_from b.
  Proof. intros Hb E. symmetry in E. revert E. unfold py_inner, py_from. now apply lower_not_underscore. Qed.

  Lemma from_defined_shape x : In x (py_from_defined g) <->
    (graph_needs g (KPrim PDuration) = true /\ x = s_ "_duration_from_string") \/
    (exists n, In n parts /\ (x = py_inner n \/ x = py_from n)) \/ x = py_from (g_name g).
  Proof.
    unfold py_from_defined, parts. rewrite !in_app_iff, !in_flat_map. split.
    - intros [H|[(c & Hc & H)|[(e & He & H)|[<-|[]]]]].
      + left. destruct (graph_needs g (KPrim PDuration)); [|destruct H]. destruct H as [<-|[]]. now split.
      + right. left. exists (c_name c). split; [apply in_or_app; left; now apply in_map|]. destruct H as [<-|[<-|[]]]; auto.
      + right. left. exists (e_name e). split; [apply in_or_app; right; now apply in_map|]. destruct H as [<-|[<-|[]]]; auto.
      + now right; right.
    - intros [[H ->]|[(n & Hn & H)| ->]].
      + left. rewrite H. now left.
      + apply in_app_or in Hn as [Hn|Hn]; apply in_map_iff in Hn as (z & <- & Hz); [right; left|right; right; left]; exists z; (split; [exact Hz|]);
          destruct H as [->| ->]; cbn; auto.
      + do 3 right. now left.
  Qed.
  Lemma from_defined_nodup : NoDup (py_from_defined g).
  Proof.
    destruct parts_lower as (N1 & N2 & N3). unfold py_from_defined.
    assert (M : NoDup (flat_map (fun n => [py_inner n; py_from n]) parts ++ [py_from (g_name g)])).
    { apply NoDup_app_intro.
      - apply flat_pairs_nodup; [intros a b _ Hb; apply inner_not_from; now apply N3|apply map_wrap_nodup; [exact py_inner_inj|exact N1]|apply map_wrap_nodup; [exact py_from_inj|exact N1]].
      - repeat constructor. intros [].
      - intros x Hx [<-|[]]. apply in_flat_map in Hx as (n & Hn & [H|[H|[]]]).
        + revert H. apply inner_not_from. apply Hname. now left.
        + apply py_from_inj in H. apply N2. rewrite <- H. now apply in_map. }
    unfold parts in M. rewrite flat_map_app, !flat_map_map, <- app_assoc in M.
    destruct (graph_needs g (KPrim PDuration)); [|exact M]. cbn [app]. constructor; [|exact M].
    intros H. apply in_app_or in H. assert (K : forall n, py_inner n <> s_ "_duration_from_string" /\ py_from n <> s_ "_duration_from_string").
    { intros n. split; intros E; apply (f_equal (ends (s_ "_from"))) in E; [unfold py_inner in E; rewrite app_assoc, ends_app in E|unfold py_from in E; rewrite ends_app in E]; discriminate E. }
    destruct H as [H|H].
    - apply in_flat_map in H as (c & _ & [H|[H|[]]]); now apply K in H.
    - apply in_app_or in H as [H|[H|[]]]; [|now apply K in H]. apply in_flat_map in H as (e & _ & [H|[H|[]]]); now apply K in H.
  Qed.

  Lemma wrapped_nodup (f : str -> str) : (forall a b, f a = f b -> lower a = lower b) ->
    NoDup (map (fun c => f (c_name c)) (g_classes g) ++ map (fun e => f (e_name e)) (g_embeds g) ++ [f (g_name g)]).
  Proof.
    intros Hf. destruct parts_lower as (N1 & N2 & _). assert (M : NoDup (map f parts ++ [f (g_name g)])).
    { apply NoDup_app_intro; [now apply map_wrap_nodup|repeat constructor; intros []|]. intros x Hx [<-|[]].
      apply in_map_iff in Hx as (n & H & Hn). apply Hf in H. apply N2. rewrite <- H. now apply in_map. }
    unfold parts in M. now rewrite map_app, !map_map, <- app_assoc in M.
  Qed.
  Lemma wrapped_in (f : str -> str) x : In x (map (fun c => f (c_name c)) (g_classes g) ++ map (fun e => f (e_name e)) (g_embeds g) ++ [f (g_name g)]) <->
    exists n, In n (structure_names g) /\ x = f n.
  Proof.
    unfold structure_names. rewrite !in_app_iff. split.
    - intros [H|[H|[<-|[]]]].
      + apply in_map_iff in H as (c & <- & Hc). exists (c_name c). split; [right; apply in_or_app; left; now apply in_map|reflexivity].
      + apply in_map_iff in H as (c & <- & Hc). exists (e_name c). split; [right; apply in_or_app; right; now apply in_map|reflexivity].
      + exists (g_name g). split; [now left|reflexivity].
    - intros (n & [<-|Hn] & ->); [right; right; now left|]. apply in_app_or in Hn as [Hn|Hn]; apply in_map_iff in Hn as (z & <- & Hz).
      + left. apply in_map_iff. now exists z.
      + right. left. apply in_map_iff. now exists z.
  Qed.
End Defined.

Section Sources.
  Variable py : py_conf.
  Variable g : graph.
  Hypothesis HR : resolved g.
  Hypothesis HN : NoDup (map c_name (g_classes g)).
  Hypothesis Hplural : forall c, In c (g_classes g) -> capital_name (c_plural c).
  Hypothesis HNplural : NoDup (map lower (map c_plural (g_classes g))).
  Hypothesis Hname : forall n, In n (structure_names g) -> capital_name n.
  Let pkg : str := bound_as (pc_module_name py).
  Hypothesis Hapart : python_names_apart g pkg.

  Lemma pkg_not_local : ~ py_local g pkg.
  Proof.
    destruct Hapart as (_ & H & _). intros [L|[L|L]]; apply H.
    - left. cbn in L |- *. tauto.
    - right. now left.
    - right. right. now left.
  Qed.

  (** The imported modules: the package and some of the others. *)
  Definition known_module (m : str) : Prop :=
    In m [mod_types py; mod_parse py] \/ In m [mod_typing; mod_pathlib; mod_pytz; mod_pytz_exceptions; mod_datetime; mod_collections; mod_re].
  Lemma known_module_right m : known_module m -> ~ In (bound_as m) python_builtins /\
    (bound_as m = pkg -> m = pc_module_name py \/ m = pc_module_name py ++ s_ ".parse").
  Proof.
    destruct Hapart as (_ & H1 & H2 & _). intros [H|H].
    - cbn in H. destruct H as [<-|[<-|[]]]; [split; [exact H2|now left]|]. rewrite bound_parse. split; [exact H2|now right].
    - split.
      + cbn in H. repeat (destruct H as [<-|H]; [vm_compute; intuition discriminate|]). destruct H.
      + intros E. exfalso. apply H1. left. rewrite <- E. cbn in H. repeat (destruct H as [<-|H]; [vm_compute; tauto|]). destruct H.
  Qed.
  Lemma known_module_not m x : known_module m -> x <> pkg ->
    ~ In x (map s_ ["typing"; "pathlib"; "pytz"; "datetime"; "collections"; "re"]%string) -> bound_as m <> x.
  Proof.
    intros [H|H] Hx Hy.
    - cbn in H. destruct H as [<-|[<-|[]]]; [|rewrite bound_parse]; intros E; now apply Hx.
    - intros E. apply Hy. rewrite <- E. cbn in H. repeat (destruct H as [<-|H]; [vm_compute; tauto|]). destruct H.
  Qed.

  Lemma defined_fresh imported defined :
    (forall m, In m imported -> known_module m) ->
    (forall x, In x defined -> python_name g x /\ ~ In x python_builtins /\ ~ In x (map s_ ["typing"; "pathlib"; "pytz"; "datetime"; "collections"; "re"]%string)) ->
    forall x, In x defined -> ~ In x (python_builtins ++ map bound_as imported).
  Proof.
    intros Hi Hd x Hx H. destruct (Hd x Hx) as (Hn & Hb & Ho). apply in_app_or in H as [H|H]; [contradiction|].
    apply in_map_iff in H as (m & E & Hm). revert E. apply known_module_not; [now apply Hi| |exact Ho].
    intros ->. destruct Hapart as (_ & H1 & _). contradiction.
  Qed.

  Lemma not_ending (p x : str) (l : list str) : forallb (fun y => negb (ends p y)) l = true -> ends p x = true -> ~ In x l.
  Proof. intros H Hx Hin. rewrite forallb_forall in H. apply H in Hin. now rewrite Hx in Hin. Qed.
  Lemma not_beginning (p x : str) (l : list str) : forallb (fun y => negb (begins p y)) l = true -> begins p x = true -> ~ In x l.
  Proof. intros H Hx Hin. rewrite forallb_forall in H. apply H in Hin. now rewrite Hx in Hin. Qed.

  Lemma from_source imports :
    (forall m, In m imports -> known_module m) -> incl (py_from_uses py g) imports ->
    python_source_right (pc_module_name py) imports (py_from_defined g) (py_parsers py g).
  Proof.
    intros Hi Hu. split; [intros m Hm; apply known_module_right; now apply Hi|]. split; [apply from_defined_nodup; [exact Hname|apply Hapart]|].
    split.
    - apply defined_fresh; [exact Hi|]. intros x Hx. apply from_defined_shape in Hx as [[_ ->]|[(n & Hn & Hx)| ->]].
      + split; [left; cbn; tauto|]. split; vm_compute; intuition discriminate.
      + split; [do 3 right; exists n; split; [right; exact Hn|destruct Hx as [->| ->]; cbn; auto]|].
        assert (E : ends (s_ "_from") x = true).
        { destruct Hx as [->| ->]; [unfold py_inner; rewrite app_assoc|unfold py_from]; apply ends_app. }
        split; (apply (not_ending (s_ "_from")); [vm_compute; reflexivity|exact E]).
      + split; [do 3 right; exists (g_name g); split; [now left|cbn; auto]|].
        split; (apply (not_ending (s_ "_from")); [vm_compute; reflexivity|unfold py_from; apply ends_app]).
    - set (G := python_builtins ++ map bound_as imports ++ py_from_defined g).
      assert (G1 : incl python_builtins G) by (intros x Hx; apply in_or_app; now left).
      assert (G2 : incl (map bound_as (py_from_uses py g)) G).
      { intros x Hx. apply in_map_iff in Hx as (m & <- & Hm). apply in_or_app. right. apply in_or_app. left. apply in_map. now apply Hu. }
      assert (G3 : graph_needs g (KPrim PDuration) = true -> In (s_ "_duration_from_string") G).
      { intros E. apply in_or_app. right. apply in_or_app. right. apply from_defined_shape. now left. }
      assert (G4 : forall n, In n (map c_name (g_classes g) ++ map e_name (g_embeds g)) -> In (py_inner n) G).
      { intros n Hn. apply in_or_app. right. apply in_or_app. right. apply from_defined_shape. right. left. exists n. auto. }
      assert (G5 := pkg_not_local).
      intros f Hf. unfold py_parsers in Hf. apply in_app_or in Hf as [Hf|Hf]; [|apply in_app_or in Hf as [Hf|[<-|[]]]].
      + apply in_flat_map in Hf as ([c k] & Hc & Hf). apply combine_seq_nth in Hc as (j & -> & Hc). cbn [fst snd Nat.add] in Hf.
        assert (Hk : nth_error (composites g) j = Some (c_props c)).
        { unfold composites. rewrite nth_error_app1 by (rewrite map_length; apply nth_error_Some; congruence). now rewrite nth_error_map, Hc. }
        assert (Hr : j < root g) by (unfold root, n_classes, n_embeds; assert (j < length (g_classes g)) by (apply nth_error_Some; congruence); lia).
        assert (Hcn : In (c_name c) (map c_name (g_classes g) ++ map e_name (g_embeds g))) by (apply in_or_app; left; apply in_map; now apply nth_error_In in Hc).
        destruct Hf as [<-|[<-|[]]]; [apply py_parse_inner_right; assumption|apply (py_parse_outer_right py g) with (ps := c_props c); assumption].
      + apply in_flat_map in Hf as ([e k] & He & Hf). apply combine_seq_nth in He as (j & -> & He). cbn [fst snd] in Hf.
        assert (Hj : j < length (g_embeds g)) by (apply nth_error_Some; congruence).
        assert (Hk : nth_error (composites g) (length (g_classes g) + j) = Some (e_props e)).
        { unfold composites. rewrite nth_error_app2 by (rewrite map_length; lia). rewrite map_length, Nat.add_comm, Nat.add_sub.
          rewrite nth_error_app1 by (now rewrite map_length). now rewrite nth_error_map, He. }
        assert (Hr : length (g_classes g) + j < root g) by (unfold root, n_classes, n_embeds; lia).
        assert (Hen : In (e_name e) (map c_name (g_classes g) ++ map e_name (g_embeds g))) by (apply in_or_app; right; apply in_map; now apply nth_error_In in He).
        destruct Hf as [<-|[<-|[]]]; [apply py_parse_inner_right; assumption|apply (py_parse_outer_right py g) with (ps := e_props e); assumption].
      + apply py_parse_graph_right; assumption.
  Qed.

  Lemma to_source imports :
    (forall m, In m imports -> known_module m) -> In mod_collections imports ->
    python_source_right (pc_module_name py) imports (py_to_defined g) (py_serializers py g).
  Proof.
    intros Hi Hu. split; [intros m Hm; apply known_module_right; now apply Hi|].
    destruct Hapart as (A1 & A2 & A3 & A4).
    assert (Hser : forall n, begins (s_ "serialize_") (py_serialize n) = true) by (intros n; apply begins_app).
    split; [|split].
    - unfold py_to_defined. assert (M := wrapped_nodup g Hname A1 py_serialize py_serialize_inj).
      destruct (graph_needs g (KPrim PDuration)); [|exact M]. cbn [app]. constructor; [|exact M].
      intros H. apply wrapped_in in H as (n & _ & H). discriminate H.
    - apply defined_fresh; [exact Hi|]. intros x Hx. unfold py_to_defined in Hx. apply in_app_or in Hx as [Hx|Hx].
      + destruct (graph_needs g (KPrim PDuration)); [|destruct Hx]. destruct Hx as [<-|[]].
        split; [left; cbn; tauto|]. split; vm_compute; intuition discriminate.
      + apply wrapped_in in Hx as (n & Hn & ->). split; [do 3 right; exists n; split; [exact Hn|cbn; auto]|].
        split; (apply (not_beginning (s_ "serialize_")); [vm_compute; reflexivity|apply Hser]).
    - set (G := python_builtins ++ map bound_as imports ++ py_to_defined g).
      assert (G1 : incl python_builtins G) by (intros x Hx; apply in_or_app; now left).
      assert (G2 : In mod_collections G).
      { apply in_or_app. right. apply in_or_app. left. now apply (in_map bound_as _ mod_collections). }
      assert (G3 : graph_needs g (KPrim PDuration) = true -> In (s_ "_duration_to_string") G).
      { intros E. apply in_or_app. right. apply in_or_app. right. unfold py_to_defined. rewrite E. now left. }
      assert (G4 : forall n, In n (structure_names g) -> In (py_serialize n) G).
      { intros n Hn. apply in_or_app. right. apply in_or_app. right. unfold py_to_defined. apply in_or_app. right. apply wrapped_in. now exists n. }
      intros f Hf. unfold py_serializers in Hf. apply in_app_or in Hf as [Hf|Hf]; [|apply in_app_or in Hf as [Hf|[<-|[]]]].
      + apply in_map_iff in Hf as (c & <- & Hc). apply (py_serializer_right py g); try assumption. unfold composites. apply in_or_app. left. now apply in_map.
      + apply in_map_iff in Hf as (c & <- & Hc). apply (py_serializer_right py g); try assumption. unfold composites. apply in_or_app. right. apply in_or_app. left. now apply in_map.
      + apply (py_serialize_graph_right py g); assumption.
  Qed.

  (** The placeholders of the embeds come first. *)
  Lemma placeholders_permutation :
    Permutation (map (fun c => py_placeholder (c_name c)) (g_classes g) ++ map (fun e => py_placeholder (e_name e)) (g_embeds g) ++ [py_placeholder (g_name g)])
                (map (fun e => py_placeholder (e_name e)) (g_embeds g) ++ map (fun c => py_placeholder (c_name c)) (g_classes g) ++ [py_placeholder (g_name g)]).
  Proof. rewrite !app_assoc. apply Permutation_app_tail, Permutation_app_comm. Qed.
  Lemma placeholder_in x :
    In x (map (fun e => py_placeholder (e_name e)) (g_embeds g) ++ map (fun c => py_placeholder (c_name c)) (g_classes g) ++ [py_placeholder (g_name g)]) ->
    exists n, In n (structure_names g) /\ x = py_placeholder n.
  Proof. intros H. apply wrapped_in. revert H. apply Permutation_in, Permutation_sym, placeholders_permutation. Qed.

  Lemma parse_source imports :
    (forall m, In m imports -> known_module m) -> In (mod_types py) imports ->
    python_source_right (pc_module_name py) imports (py_parse_defined g) (py_placeholders py g).
  Proof.
    intros Hi Hu. split; [intros m Hm; apply known_module_right; now apply Hi|].
    destruct Hapart as (A1 & A2 & A3 & A4).
    assert (Hser : forall n, begins (s_ "placeholder_") (py_placeholder n) = true) by (intros n; apply begins_app).
    split; [|split].
    - unfold py_parse_defined. assert (M := wrapped_nodup g Hname A1 py_placeholder py_placeholder_inj).
      apply (Permutation_NoDup placeholders_permutation) in M. cbn [map app].
      constructor; [|constructor; [|exact M]].
      + intros [H|H]; [discriminate H|]. apply placeholder_in in H as (n & _ & H). discriminate H.
      + intros H. apply placeholder_in in H as (n & _ & H). discriminate H.
    - apply defined_fresh; [exact Hi|]. intros x Hx. unfold py_parse_defined in Hx. apply in_app_or in Hx as [Hx|Hx].
      + cbn in Hx. destruct Hx as [<-|[<-|[]]]; (split; [left; cbn; tauto|split; vm_compute; intuition discriminate]).
      + apply placeholder_in in Hx as (n & Hn & ->). split; [do 3 right; exists n; split; [exact Hn|cbn; auto]|].
        split; (apply (not_beginning (s_ "placeholder_")); [vm_compute; reflexivity|apply Hser]).
    - assert (G1 : In pkg (python_builtins ++ map bound_as imports ++ py_parse_defined g)).
      { apply in_or_app. right. apply in_or_app. left. now apply (in_map bound_as _ (mod_types py)). }
      assert (P1 : python_right python37_keywords (python_builtins ++ map bound_as imports ++ py_parse_defined g) (py_class_placeholder py)).
      { assert (Hpkg : pkg <> s_ "id") by (intros E; apply A2; rewrite E; left; cbn; tauto).
        apply python_right_static; [cbn; repeat constructor; intros []|intros p [<-|[]]; vm_compute; intuition discriminate|].
        apply st_outer; [|exact G1|].
        - intros [[H|[]]|H]; [now apply Hpkg|]. apply assigns_declared in H. destruct H.
        - apply st_own; [left; now left|reflexivity|constructor]. }
      assert (P2 : python_right python37_keywords (python_builtins ++ map bound_as imports ++ py_parse_defined g) (py_plain_placeholder py)).
      { apply python_right_static; [constructor|intros p []|]. apply st_outer; [|exact G1|constructor].
        intros [[]|H]. apply assigns_declared in H. destruct H. }
      intros f Hf. unfold py_placeholders in Hf. apply in_app_or in Hf as [Hf|Hf]; [apply in_map_iff in Hf as (c & <- & _); exact P2|].
      apply in_app_or in Hf as [Hf|[<-|[]]]; [apply in_map_iff in Hf as (c & <- & _); exact P1|exact P2].
  Qed.
End Sources.
