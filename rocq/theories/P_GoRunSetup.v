(** Running the generated Go parsers: what is known about the package of a schema. *)
From Coq Require Import String List Arith NArith ZArith Bool Lia.
From Verif Require Import Base M_Naming M_Errors M_Schema M_Dec M_TypeGraph M_Walk M_GoImports M_Duration M_GoGen M_AutoID S_Scope M_Scope M_GoScope
  S_TypeGraph S_Walk S_Conform S_Common S_GoGen P_Common P_GoBase P_AutoID P_Scope P_BlockScope P_GoImports P_References P_PyScope P_GoScope T_Walk
  S_Compare S_GoTyping M_GoTyping P_GoTyping P_GoFunctions P_GoPackage.
From Verif Require Import S_GoRun S_GoMemory P_GoRun P_GoRunParse P_GoRunValue.
Import ListNotations.
Open Scope list_scope.
Local Open Scope nat_scope.

(** The regular expressions of the package (fromjsonable.py:393-420) *)
Definition pattern_globals (g : graph) : list (str * str) := match compile_regexes (enumerate_patterns g) with Some l => l | None => [] end.

Lemma from_not_library X printed df dt name vs : S_GoRun.library X printed df dt (go_from name) vs = None.
Proof.
  assert (HE : forall x, str_eqb (go_from name) x = true -> rev (firstn 2 (rev x)) = s_ "le").
  { intros x E. apply str_eqb_eq in E as <-. unfold go_from. rewrite rev_app_distr. reflexivity. }
  unfold S_GoRun.library. repeat (match goal with |- context [str_eqb (go_from name) ?x] => destruct (str_eqb (go_from name) x) eqn:?E; [apply HE in E; vm_compute in E; discriminate|clear E] end).
  reflexivity.
Qed.
Lemma find_by_name (fs : list gfunction) f : NoDup (map gf_name fs) -> In f fs -> find (fun h => str_eqb (gf_name h) (gf_name f)) fs = Some f.
Proof.
  induction fs as [|h fs IH]; intros Hn Hin; [destruct Hin|]. cbn [map] in Hn. inversion Hn as [|? ? Hh Hn']; subst. cbn [find]. destruct Hin as [->|Hin].
  - now rewrite str_eqb_refl.
  - destruct (str_eqb (gf_name h) (gf_name f)) eqn:E; [|now apply IH]. apply str_eqb_eq in E. exfalso. apply Hh. rewrite E. now apply in_map.
Qed.
Lemma lookup_nodup {A} (l : list (str * A)) k x : NoDup (keys l) -> In (k, x) l -> lookup k l = Some x.
Proof.
  induction l as [|[k' y] l IH]; intros Hn Hin; [destruct Hin|]. unfold keys in Hn. cbn [map fst] in Hn. inversion Hn as [|? ? Hk Hn']; subst. cbn [lookup]. destruct Hin as [E|Hin].
  - injection E as -> ->. now rewrite str_eqb_refl.
  - destruct (str_eqb k k') eqn:E; [|now apply IH]. apply str_eqb_eq in E. subst. exfalso. apply Hk. now apply (in_map fst) in Hin.
Qed.

Section Setup.
  Variable X : gext.
  Variable printed : str -> list (rv (g_time X)) -> str.
  Variable duration_to : Z -> str.
  Variable g : graph.
  Notation val := (rv (g_time X)).
  Notation structs := (go_structs g).
  Notation globals := (pattern_globals g).
  Notation zero := (zero X structs).
  Notation zero_is := (zero_is X structs).
  Notation usable := (usable globals g).
  Notation shaped := (shaped X g).
  Notation fresh_field := (fresh_field X g).
  Notation parses := (parses X printed duration_to (go_functions g) g).
  Hypothesis HR : resolved g.
  Hypothesis HN : NoDup (map c_name (g_classes g)).
  Hypothesis HNe : NoDup (map e_name (g_embeds g)).
  Hypothesis Hstructs : NoDup (keys structs).
  Hypothesis Hcapital : forall x, In x (keys structs) -> capital_name x.
  Hypothesis Hfunctions : NoDup (map gf_name (go_functions g)).
  Hypothesis Hefields : forall e, In e (g_embeds g) -> NoDup (map (fun p => field (p_name p)) (e_props e)).

  Lemma patterns_known p : pattern_of g p -> known_pattern globals g p.
  Proof.
    intros H. destruct (C30_patterns_unique_complete g) as (decls & Ed & Hnd & _ & _ & Hv). destruct (Hv p H) as (x & Ex & Hx). exists x. split; [exact Ex|].
    unfold pattern_globals. rewrite Ed. now apply lookup_nodup.
  Qed.

  Lemma usable_more (a b : cls -> Prop) t : (forall c, a c -> b c) -> usable a t -> usable b t.
  Proof.
    intros Hi. induction t; cbn; auto.
    - intros (c & E & Hc). exists c. auto.
    - intros [He Hc]. auto.
  Qed.
  Lemma deeper t u ref : value_type g t ref -> (exists mn mx, t = TArray u mn mx) \/ t = TMap u -> exists ref', value_type g u ref'.
  Proof.
    intros [r ps p n Hc Hp Hin _] Hu. exists (r ++ s_ "/" ++ p_name p ++ levels (S n)). apply (value_type_at g u _ r ps p (S n)); [exact Hc|exact Hp| |reflexivity].
    now apply (inside_step _ _ _ Hin).
  Qed.
  Lemma type_usable (avail : cls -> Prop) t : forall ref, value_type g t ref -> ty_resolved g t ->
    (forall n c, In n (classes_in t) -> find_class g n = Some c -> avail c) ->
    (forall n c, In n (embeds_in t) -> In c (embed_references g n) -> avail c) -> usable avail t.
  Proof.
    induction t; intros ref HV HT HC HE; cbn; try exact I.
    - destruct pattern; [|exact I]. apply patterns_known. now apply pattern_of_string with ref.
    - destruct pattern; [|exact I]. apply patterns_known. now apply pattern_of_path with ref.
    - destruct (deeper _ t _ HV ltac:(left; eauto)) as (ref' & HV'). now apply (IHt ref').
    - destruct (deeper _ t _ HV ltac:(right; eauto)) as (ref' & HV'). now apply (IHt ref').
    - cbn in HT. destruct (find_class g name) as [c|] eqn:E; [|congruence]. exists c. split; [reflexivity|]. apply (HC name); [now left|exact E].
    - cbn in HT. destruct (find_embed g name) as [e|] eqn:E; [|congruence]. split; [now exists e|]. intros c Hc. apply (HE name); [now left|exact Hc].
  Qed.
  Lemma composite_usable k ps r : nth_error (composites g) k = Some ps -> k < root g -> composite g r ps ->
    Forall (fun p => usable (fun c => In c (references_of g k)) (p_type p)) ps.
  Proof.
    intros Hk Hroot Hc. destruct (references_of_spec g HR HN k ps Hk Hroot) as (_ & _ & H1 & H2). apply Forall_forall. intros p Hp.
    apply (type_usable _ _ (r ++ s_ "/" ++ p_name p ++ levels 0)).
    - apply (value_type_at g _ _ r ps p 0); [exact Hc|exact Hp|constructor|reflexivity].
    - apply (HR ps p); [now apply nth_error_In in Hk|exact Hp].
    - intros n c Hn E. now apply (H1 p n).
    - intros n c Hn E. now apply (H2 p n Hp Hn).
  Qed.
  Lemma references_names k ps : nth_error (composites g) k = Some ps -> k < root g -> NoDup (map c_name (references_of g k)) /\ incl (references_of g k) (g_classes g).
  Proof.
    intros Hk Hroot. destruct (references_of_spec g HR HN k ps Hk Hroot) as (Hi & Hnd & _). split; [|exact Hi].
    clear - HN Hi Hnd. induction Hnd as [|c l Hc Hnd IH]; [constructor|]. cbn. constructor; [|apply IH; intros x Hx; apply Hi; now right].
    intros Hin. apply in_map_iff in Hin as (d & E & Hd). apply Hc. replace c with d; [exact Hd|].
    assert (Ic : In c (g_classes g)) by (apply Hi; now left). assert (Id : In d (g_classes g)) by (apply Hi; now right).
    clear - HN E Ic Id. induction (g_classes g) as [|x cs IH]; [destruct Ic|]. cbn in HN. inversion HN as [|? ? Hx HN']; subst. destruct Ic as [->|Ic], Id as [->|Id]; auto.
    - exfalso. apply Hx. rewrite <- E. now apply in_map.
    - exfalso. apply Hx. rewrite E. now apply in_map.
  Qed.

  Lemma position_at j e : nth_error (g_embeds g) j = Some e -> position (e_name e) (map e_name (g_embeds g)) = j.
  Proof.
    clear - HNe. revert j. induction (g_embeds g) as [|x es IH]; intros [|j] E; cbn in *; try discriminate.
    - injection E as ->. now rewrite str_eqb_refl.
    - inversion HNe as [|? ? Hx HN']; subst. destruct (str_eqb (e_name e) (e_name x)) eqn:E'; [|f_equal; now apply IH].
      apply str_eqb_eq in E'. exfalso. apply Hx. rewrite <- E'. apply nth_error_In in E. now apply in_map.
  Qed.
  Lemma numbered (A : Type) (l : list A) : forall s j x, nth_error l j = Some x -> In (x, s + j) (combine l (List.seq s (length l))).
  Proof.
    induction l as [|y l IH]; intros s [|j] x E; cbn in *; try discriminate.
    - injection E as ->. left. now rewrite Nat.add_0_r.
    - right. rewrite Nat.add_succ_r. now apply (IH (S s)).
  Qed.
  Lemma function_parses f name is_class refs ps : f = parse_composite_code g name is_class refs ps -> In f (go_functions g) -> parses name is_class refs ps.
  Proof. intros -> Hin. split; [intros vs; apply from_not_library|]. now apply (find_by_name (go_functions g)) in Hin. Qed.

  Lemma embeds_ready n e : find_embed g n = Some e -> parses n false (embed_references g n) (e_props e) /\ NoDup (map (fun p => field (p_name p)) (e_props e)) /\
    NoDup (map c_name (embed_references g n)) /\ Forall (fun p => usable (fun c => In c (embed_references g n)) (p_type p)) (e_props e).
  Proof.
    intros E. apply find_some in E as [Hin En]. apply str_eqb_eq in En as <-. destruct (In_nth_error _ _ Hin) as [j Hj]. destruct (embed_at g j e Hj) as [Hk Hroot].
    unfold embed_references. rewrite (position_at j e Hj). destruct (references_names _ _ Hk Hroot) as [Hnames _]. split; [|split; [now apply Hefields|split; [exact Hnames|]]].
    - eapply function_parses; [reflexivity|]. unfold go_functions, parser_functions. rewrite !in_app_iff. left. right. left.
      apply (in_map (fun ek => parse_composite_code g (e_name (fst ek)) false (references_of g (snd ek)) (e_props (fst ek))) _ (e, length (g_classes g) + j)).
      unfold numbered_embeds. now apply numbered.
    - eapply composite_usable; [exact Hk|exact Hroot|]. now apply (composite_embed g e).
  Qed.
  Lemma class_ready k c : nth_error (g_classes g) k = Some c -> parses (c_name c) true (references_of g k) (c_props c) /\
    NoDup (map c_name (references_of g k)) /\ incl (references_of g k) (g_classes g) /\ Forall (fun p => usable (fun c => In c (references_of g k)) (p_type p)) (c_props c).
  Proof.
    intros Hk. destruct (class_at g k c Hk) as [Hps Hroot]. destruct (references_names _ _ Hps Hroot) as [Hnames Hincl]. split; [|split; [exact Hnames|split; [exact Hincl|]]].
    - eapply function_parses; [reflexivity|]. unfold go_functions, parser_functions. rewrite !in_app_iff. left. left.
      apply (in_map (fun ck => parse_composite_code g (c_name (fst ck)) true (references_of g (snd ck)) (c_props (fst ck))) _ (c, k)).
      unfold numbered_classes. now apply (numbered _ _ 0).
    - eapply composite_usable; [exact Hps|exact Hroot|]. apply nth_error_In in Hk. now apply (composite_class g c).
  Qed.
  Lemma graph_ready : Forall (fun p => usable (fun c => In c (g_classes g)) (p_type p)) (g_props g) /\
    (forall vs, S_GoRun.library X printed go_dur_from duration_to (go_from (g_name g)) vs = None) /\
    find (fun h => str_eqb (gf_name h) (go_from (g_name g))) (go_functions g) = Some (parse_graph_code g).
  Proof.
    split; [|split].
    - assert (Hin : In (g_props g) (composites g)) by (unfold composites; rewrite !in_app_iff; right; right; now left).
      apply Forall_forall. intros p Hp. apply (type_usable _ _ (g_ref g ++ s_ "/" ++ p_name p ++ levels 0)).
      + apply (value_type_at g _ _ (g_ref g) (g_props g) p 0); [constructor|exact Hp|constructor|reflexivity].
      + now apply (HR (g_props g)).
      + intros n c _ E. now apply find_some in E as [E _].
      + intros n c Hn Hc. assert (Hres := HR _ _ Hin Hp).
        assert (He : find_embed g n <> None).
        { clear - Hn Hres. induction (p_type p); cbn in *; try contradiction; auto. destruct Hn as [<-|[]]. exact Hres. }
        destruct (find_embed g n) as [e|] eqn:Ee; [|congruence]. apply find_some in Ee as [Hie En]. apply str_eqb_eq in En as <-. destruct (In_nth_error _ _ Hie) as [j Hj].
        destruct (embed_at g j e Hj) as [Hk Hroot]. unfold embed_references in Hc. rewrite (position_at j e Hj) in Hc. now apply (references_names _ _ Hk Hroot).
    - intros vs. apply from_not_library.
    - apply (find_by_name (go_functions g) (parse_graph_code g) Hfunctions). unfold go_functions, parser_functions. rewrite !in_app_iff. left. right. right. now left.
  Qed.

  (** * Zero values *)
  Lemma zero_fold n (fields : list (str * gtype)) : forall l,
    fold_right (fun ft acc => match zero n (snd ft), acc with Some z, Some l => Some ((fst ft, z) :: l) | _, _ => None end) (Some []) fields = Some l ->
    Forall2 (fun ft fz => fst ft = fst fz /\ zero n (snd ft) = Some (snd fz)) fields l.
  Proof.
    induction fields as [|[f t] fields IH]; intros l; cbn [fold_right]; [intros E; injection E as <-; constructor|]. cbn [fst snd].
    destruct (zero n t) as [z|] eqn:Ez; [|discriminate]. destruct (fold_right _ _ fields) as [l'|]; [|discriminate]. intros E. injection E as <-. constructor; [now split|now apply IH].
  Qed.
  Lemma zero_lookup n (fields : list (str * gtype)) l f t : Forall2 (fun ft fz => fst ft = fst fz /\ zero n (snd ft) = Some (snd fz)) fields l -> NoDup (keys fields) -> In (f, t) fields ->
    exists z, lookup f l = Some z /\ zero n t = Some z.
  Proof.
    intros HF. induction HF as [|[f1 t1] [f2 z] fields l [E1 E2] HF IH]; intros Hnd Hin; [destruct Hin|]. cbn in E1, E2. subst f2. unfold keys in Hnd. cbn in Hnd. inversion Hnd as [|? ? Hf Hnd']; subst.
    cbn [lookup]. destruct Hin as [E|Hin].
    - injection E as -> ->. rewrite str_eqb_refl. now exists z.
    - destruct (str_eqb f f1) eqn:E; [|now apply IH]. apply str_eqb_eq in E. subst. exfalso. apply Hf. now apply (in_map fst) in Hin.
  Qed.
  Lemma zero_struct n x fields z : In (x, fields) structs -> zero (S n) (GNamed x) = Some z ->
    exists ws, z = RStruct ws /\ Forall2 (fun ft fz => fst ft = fst fz /\ zero n (snd ft) = Some (snd fz)) fields ws.
  Proof.
    intros Hin. cbn [S_GoRun.zero]. destruct (str_eqb x (s_ "time.Duration")) eqn:E; [apply str_eqb_eq in E; subst; exfalso; apply (in_map fst), Hcapital in Hin as (a & r & E & Ha); injection E as <- _; discriminate|].
    rewrite (lookup_nodup _ _ _ Hstructs Hin). destruct (fold_right _ _ fields) as [l|] eqn:El; [|discriminate]. intros E'. injection E' as <-. exists l. split; [reflexivity|]. now apply zero_fold.
  Qed.
  Lemma zero_nil n t z : (exists u, t = GPointer u) \/ (exists u, t = GSlice u) \/ (exists u, t = S_GoTyping.GMap u) -> zero n t = Some z -> z = RNil.
  Proof. destruct n; [discriminate|]. intros [[u ->]|[[u ->]|[u ->]]]; cbn; congruence. Qed.
  Lemma embed_struct e : In e (g_embeds g) -> In (ucamel (e_name e), map field_of (e_props e)) structs.
  Proof. intros H. unfold go_structs. rewrite !in_app_iff. left. now apply (in_map (fun e => (ucamel (e_name e), map field_of (e_props e)))). Qed.
  Lemma zero_shaped avail : forall n t z, usable avail t -> zero n (go_ty t) = Some z -> shaped t z.
  Proof.
    intros n. revert avail. induction n as [n IH] using lt_wf_ind. intros avail t z Hu Hz. destruct t; try (apply shaped_other; discriminate).
    cbn in Hu. destruct Hu as [[e He] _]. assert (He' := He). apply find_some in He' as [Hin En]. apply str_eqb_eq in En. subst name.
    destruct n as [|n]; [discriminate|]. destruct (zero_struct n _ _ _ (embed_struct e Hin) Hz) as (ws & -> & HF). apply shaped_embed with (e := e); [exact He|].
    intros p Hp. destruct (zero_lookup n _ ws (field (p_name p)) (go_field_ty p) HF) as (w & E1 & E2).
    - unfold keys. rewrite map_map. cbn [field_of fst]. now apply Hefields.
    - now apply (in_map field_of).
    - exists w. split; [exact E1|]. split.
      + intros Ho. unfold go_field_ty in E2. rewrite Ho in E2. apply zero_nil in E2; [exact E2|]. destruct (is_pointer_type (p_type p)) eqn:Ep; [|left; now eexists].
        destruct (p_type p); try discriminate; cbn; eauto.
      + intros Ho. unfold go_field_ty in E2. rewrite Ho in E2. destruct (embeds_ready _ _ He) as (_ & _ & _ & Hus). rewrite Forall_forall in Hus.
        apply (IH n (Nat.lt_succ_diag_r n) _ _ _ (Hus p Hp) E2).
  Qed.
  Lemma zero_fresh n (fields : list (str * gtype)) ws avail p : Forall2 (fun ft fz => fst ft = fst fz /\ zero n (snd ft) = Some (snd fz)) fields ws -> NoDup (keys fields) ->
    usable avail (p_type p) -> In (field_of p) fields -> exists w, lookup (field (p_name p)) ws = Some w /\ fresh_field p w.
  Proof.
    intros HF Hnd Hu Hin. destruct (zero_lookup n _ ws (field (p_name p)) (go_field_ty p) HF Hnd Hin) as (w & E1 & E2). exists w. split; [exact E1|]. split.
    - intros Ho. unfold go_field_ty in E2. rewrite Ho in E2. apply zero_nil in E2; [exact E2|]. destruct (is_pointer_type (p_type p)) eqn:Ep; [|left; now eexists].
      destruct (p_type p); try discriminate; cbn; eauto.
    - intros Ho. unfold go_field_ty in E2. rewrite Ho in E2. now apply (zero_shaped avail n).
  Qed.
  Lemma zero_more n : forall m t z, n <= m -> zero n t = Some z -> zero m t = Some z.
  Proof.
    induction n as [|n IH]; [discriminate|]. intros [|m] t z Hm Hz; [lia|]. destruct t; cbn [S_GoRun.zero] in *; try exact Hz.
    destruct (str_eqb _ _); [exact Hz|]. destruct (lookup _ structs) as [fields|]; [|exact Hz]. destruct (fold_right _ _ fields) as [l|] eqn:El; [|discriminate].
    replace (fold_right (fun ft acc => match zero m (snd ft), acc with Some z, Some l => Some ((fst ft, z) :: l) | _, _ => None end) (Some []) fields) with (Some l); [exact Hz|].
    symmetry. clear Hz. revert l El. induction fields as [|[f t] fields IHf]; intros l El; cbn [fold_right] in *; [exact El|]. cbn [fst snd] in *.
    destruct (zero n t) as [y|] eqn:Ey; [|discriminate]. rewrite (IH m t y) by (try lia; exact Ey). destruct (fold_right _ (Some []) fields) as [l'|] eqn:Ef; [|discriminate].
    rewrite (IHf l' eq_refl). exact El.
  Qed.
  Lemma zero_is_at n t z : zero n t = Some z -> zero_is t z.
  Proof. intros Hz. exists n. intros m Hm. now apply (zero_more n). Qed.

  (** All structures are finite. *)
  Hypothesis Hfinite : forall x, In x (keys structs) -> exists n z, zero n (GNamed x) = Some z.
  Lemma lookup_struct x l : lookup x structs = Some l -> In x (keys structs).
  Proof.
    intros H. apply lookup_In in H. now apply (in_map fst) in H.
  Qed.
  Lemma zero_exists avail t : usable avail t -> exists z, shaped t z /\ zero_is (go_ty t) z.
  Proof.
    intros Hu. assert (HZ : exists n z, zero n (go_ty t) = Some z).
    { assert (HT : exists z, zero 1 t_time = Some z).
      { cbn. destruct (lookup _ structs) as [fs|] eqn:E; [|eexists; reflexivity]. exfalso. apply lookup_struct, Hcapital in E as (a & r & E & Ha). injection E as <- _. discriminate. }
      destruct t; try (exists 1; eexists; reflexivity); try (exists 1; exact HT).
      cbn [go_ty]. apply Hfinite. cbn in Hu. destruct Hu as [[e He] _]. apply find_some in He as [Hin En]. apply str_eqb_eq in En. subst name. apply embed_struct in Hin. now apply (in_map fst) in Hin. }
    destruct HZ as (n & z & Hz). exists z. split; [now apply (zero_shaped avail n)|now apply (zero_is_at n)].
  Qed.
  (** The zero values of the instances and of the graph *)
  Hypothesis Hcfields : forall c, In c (g_classes g) -> NoDup (s_ "ID" :: map (fun p => field (p_name p)) (c_props c)).
  Hypothesis Hgfields : NoDup (map (fun c => field (c_plural c)) (g_classes g) ++ map (fun p => field (p_name p)) (g_props g)).
  Lemma class_zero c : In c (g_classes g) -> exists zs, zero_is (GNamed (ucamel (c_name c))) (RStruct zs) /\ (exists i, lookup (s_ "ID") zs = Some i) /\
    forall p, In p (c_props c) -> exists w, lookup (field (p_name p)) zs = Some w /\ fresh_field p w.
  Proof.
    intros Hc. set (fields := (s_ "ID", GString) :: map field_of (c_props c)).
    assert (Hin : In (ucamel (c_name c), fields) structs).
    { unfold go_structs. rewrite !in_app_iff. right. left. now apply (in_map (fun c => (ucamel (c_name c), (s_ "ID", GString) :: map field_of (c_props c)))). }
    destruct (Hfinite (ucamel (c_name c))) as (n & z & Hz); [now apply (in_map fst) in Hin|]. destruct n as [|n]; [discriminate|].
    destruct (zero_struct n _ _ _ Hin Hz) as (zs & -> & HF). exists zs. split; [now apply (zero_is_at (S n))|].
    assert (Hnd : NoDup (keys fields)). { unfold fields, keys. cbn [map fst]. rewrite map_map. now apply Hcfields. }
    split.
    - destruct (zero_lookup n _ zs (s_ "ID") GString HF Hnd) as (i & Ei & _); [now left|]. now exists i.
    - intros p Hp. destruct (In_nth_error _ _ Hc) as [k Hk]. destruct (class_ready k c Hk) as (_ & _ & _ & Hus). rewrite Forall_forall in Hus.
      apply (zero_fresh n fields zs _ p HF Hnd (Hus p Hp)). right. now apply (in_map field_of).
  Qed.
  Lemma graph_zero n z : zero n (GNamed (ucamel (g_name g))) = Some z -> exists ws, z = RStruct ws /\
    (forall c, In c (g_classes g) -> lookup (field (c_plural c)) ws = Some RNil) /\
    forall p, In p (g_props g) -> exists w, lookup (field (p_name p)) ws = Some w /\ fresh_field p w.
  Proof.
    intros Hz. set (fields := map (fun c => (ucamel (c_plural c), t_registry c)) (g_classes g) ++ map field_of (g_props g)).
    assert (Hin : In (ucamel (g_name g), fields) structs).
    { unfold go_structs. rewrite !in_app_iff. right. right. now left. }
    destruct n as [|n]; [discriminate|]. destruct (zero_struct n _ _ _ Hin Hz) as (ws & -> & HF). exists ws. split; [reflexivity|].
    assert (Hnd : NoDup (keys fields)). { unfold fields, keys. rewrite map_app, !map_map. exact Hgfields. }
    split.
    - intros c Hc. destruct (zero_lookup n _ ws (field (c_plural c)) (t_registry c) HF Hnd) as (i & Ei & Hi).
      + apply in_or_app. left. now apply (in_map (fun c => (ucamel (c_plural c), t_registry c))).
      + apply zero_nil in Hi; [now subst|]. right. right. now eexists.
    - intros p Hp. destruct graph_ready as (Hus & _). rewrite Forall_forall in Hus. apply (zero_fresh n fields ws _ p HF Hnd (Hus p Hp)). apply in_or_app. right. now apply (in_map field_of).
  Qed.
End Setup.
