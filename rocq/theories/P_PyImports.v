(** Proofs about the imports of the generated Python modules. *)
From Coq Require Import String List Arith NArith ZArith Bool Lia Permutation.
From Verif Require Import Base M_Naming M_Schema M_TypeGraph M_Walk M_GoImports M_PyImports S_TypeGraph S_Conform S_Walk S_GoImports S_PyTypes S_Imports
  P_Common P_TypeGraph P_Parsed P_GoImports.
Import ListNotations.
Open Scope list_scope.
Local Open Scope nat_scope.

(** What a type needs by itself. *)
Definition own (py : py_conf) (t : ty) : list str :=
  match t with
  | TStr p => if p then [mod_re] else []
  | TPath p => (if str_eqb (pc_path_as py) (s_ "pathlib.Path") then [mod_pathlib] else []) ++ (if p then [mod_re] else [])
  | TDate _ | TTime _ | TDatetime _ => [mod_datetime]
  | TTimeZone => if str_eqb (pc_timezone_as py) (s_ "pytz.timezone") then [mod_pytz; mod_pytz_exceptions] else []
  | TMap _ => [mod_collections]
  | TEmbed _ => [mod_types py; mod_parse py]
  | _ => []
  end.

Lemma within_own (f own : ty -> list str) :
  (forall v mn mx, f (TArray v mn mx) = own (TArray v mn mx) ++ f v) ->
  (forall v, f (TMap v) = own (TMap v) ++ f v) ->
  (forall t, match t with TArray _ _ _ | TMap _ => True | _ => f t = own t end) ->
  forall p t, In p (f t) <-> within t (fun u => mem p (own u)).
Proof.
  intros HA HM HO p. induction t as [| | | | | | | | | |v IH mn mx|v IH| |];
    try (match goal with |- In p (f ?t) <-> _ => specialize (HO t) end; cbn iota in HO; rewrite HO; split;
            [intros H; apply within_itself, mem_In, H|intros (n & u & H & Hu); inversion H; subst; now apply mem_In]).
  - rewrite HA, in_app_iff, IH. split.
    + intros [H|H]; [apply within_itself, mem_In, H|now apply within_array].
    + intros H. apply within_array_inv in H as [H|H]; [left; now apply mem_In|now right].
  - rewrite HM, in_app_iff, IH. split.
    + intros [H|H]; [apply within_itself, mem_In, H|now apply within_map].
    + intros H. apply within_map_inv in H as [H|H]; [left; now apply mem_In|now right].
Qed.

(** The properties of all the composites. *)
Lemma all_properties g (f own : ty -> list str) p :
  (forall t, In p (f t) <-> within t (fun u => mem p (own u))) ->
  ((exists c, In c (g_classes g) /\ In p (flat_map (fun q => f (p_type q)) (c_props c))) \/
   (exists e, In e (g_embeds g) /\ In p (flat_map (fun q => f (p_type q)) (e_props e))) \/
   In p (flat_map (fun q => f (p_type q)) (g_props g))) <->
  some_type g (fun u => mem p (own u)).
Proof.
  intros HF. rewrite some_type_within. unfold composites. split.
  - intros [(c & Hc & H)|[(e & He & H)|H]]; apply in_flat_map in H as (q & Hq & H); apply HF in H.
    + exists (c_props c), q. rewrite !in_app_iff. split; [left; now apply in_map|]. auto.
    + exists (e_props e), q. rewrite !in_app_iff. split; [right; left; now apply in_map|]. auto.
    + exists (g_props g), q. rewrite !in_app_iff. split; [right; right; now left|]. auto.
  - intros (ps & q & Hps & Hq & H). apply HF in H. rewrite !in_app_iff in Hps. destruct Hps as [Hps|[Hps|[<-|[]]]].
    + apply in_map_iff in Hps as (c & <- & Hc). left. exists c. split; [exact Hc|]. apply in_flat_map. eauto.
    + apply in_map_iff in Hps as (c & <- & Hc). right; left. exists c. split; [exact Hc|]. apply in_flat_map. eauto.
    + right; right. apply in_flat_map. eauto.
Qed.

Section Python.
  Variables (py : py_conf) (g : graph).
  Hypothesis HR : resolved g.
  Hypothesis HS : known_settings py.

  Definition is_path t := match t with TPath _ => true | _ => false end.
  Definition is_map t := match t with TMap _ => true | _ => false end.
  Definition is_embed t := match t with TEmbed _ => true | _ => false end.
  Definition moment t := match t with TDate _ | TTime _ | TDatetime _ => true | _ => false end.

  Lemma needs_path : graph_needs g (KPrim PPath) = true <-> some_type g is_path.
  Proof. apply (needs_some g HR). intros []; cbn; split; congruence. Qed.
  Lemma needs_map : graph_needs g KMap = true <-> some_type g is_map.
  Proof.
    rewrite (some_type_kind g KMap is_map) by (intros []; cbn; split; congruence). apply graph_needs_spec; [exact HR|discriminate..].
  Qed.
  Lemma needs_moment : existsb (fun q => graph_needs g (KPrim q)) [PDate; PTime; PDatetime; PDuration] = true <->
    some_type g moment \/ some_type g is_duration.
  Proof.
    cbn [existsb]. rewrite !orb_true_iff, (needs_date g HR), (needs_time g HR), (needs_datetime g HR), (needs_duration g HR).
    rewrite (some_or g is_date (fun t => is_time t || is_datetime t) moment) by (intros []; reflexivity).
    rewrite (some_or g is_time is_datetime (fun t => is_time t || is_datetime t)) by reflexivity. intuition discriminate.
  Qed.

  Definition id_patterns : Prop := exists c, In c (g_classes g) /\ c_id_pattern c <> None.
  Lemma id_patterns_b : existsb (fun c => match c_id_pattern c with Some _ => true | None => false end) (g_classes g) = true <-> id_patterns.
  Proof.
    rewrite existsb_exists. split; intros (c & Hc & H); exists c; (split; [exact Hc|]); destruct (c_id_pattern c); congruence.
  Qed.

  Lemma classes_b : has_classes g = true <-> g_classes g <> [].
  Proof. unfold has_classes. destruct (g_classes g); split; congruence. Qed.

  (** What is looked up, by its reason. *)
  Definition reason (m : str) : Prop :=
    m = mod_typing \/ m = mod_types py \/ m = mod_parse py \/
    (m = mod_pathlib /\ pc_path_as py = s_ "pathlib.Path" /\ some_type g is_path) \/
    ((m = mod_pytz \/ m = mod_pytz_exceptions) /\ pc_timezone_as py = s_ "pytz.timezone" /\ some_type g is_time_zone) \/
    (m = mod_datetime /\ (some_type g moment \/ some_type g is_duration)) \/
    (m = mod_collections /\ (some_type g is_map \/ g_classes g <> [])) \/
    (m = mod_re /\ (some_type g constrained \/ some_type g is_duration \/ id_patterns)).

  Lemma some_imp P Q : (forall t, P t = true -> Q t = true) -> some_type g P -> some_type g Q.
  Proof. intros H (t & ref & Hv & Ht). exists t, ref. split; [exact Hv|now apply H]. Qed.

  Lemma own_reason m : some_type g (fun u => mem m (own py u)) -> reason m.
  Proof.
    intros (t & ref & Hv & Ht). apply mem_In in Ht. unfold reason.
    assert (S : forall P : ty -> bool, P t = true -> some_type g P) by (intros P HP; now exists t, ref).
    destruct t as [| | |p|p|f|f|f| | |v mn mx|v|n|n]; cbn [own] in Ht; try (now destruct Ht).
    - destruct p; [|destruct Ht]. destruct Ht as [<-|[]]. do 7 right. split; [reflexivity|]. left. now apply S.
    - apply in_app_or in Ht as [Ht|Ht].
      + destruct (str_eqb (pc_path_as py) (s_ "pathlib.Path")) eqn:E; [|destruct Ht]. destruct Ht as [<-|[]].
        apply str_eqb_eq in E. do 3 right. left. split; [reflexivity|]. split; [exact E|]. now apply S.
      + destruct p; [|destruct Ht]. destruct Ht as [<-|[]]. do 7 right. split; [reflexivity|]. left. now apply S.
    - destruct Ht as [<-|[]]. do 5 right. left. split; [reflexivity|]. left. now apply S.
    - destruct Ht as [<-|[]]. do 5 right. left. split; [reflexivity|]. left. now apply S.
    - destruct Ht as [<-|[]]. do 5 right. left. split; [reflexivity|]. left. now apply S.
    - destruct (str_eqb (pc_timezone_as py) (s_ "pytz.timezone")) eqn:E; [|destruct Ht]. apply str_eqb_eq in E.
      do 4 right. left. split; [|split; [exact E|now apply S]]. destruct Ht as [<-|[<-|[]]]; auto.
    - destruct Ht as [<-|[]]. do 6 right. left. split; [reflexivity|]. left. now apply S.
    - destruct Ht as [<-|[<-|[]]]; auto.
  Qed.

  Lemma parse_uses_own m t : In m (py_parse_uses py t) <-> within t (fun u => mem m (own py u)).
  Proof.
    apply (within_own (py_parse_uses py) (own py)); [reflexivity..|]. intros []; exact I || reflexivity.
  Qed.

  Lemma from_uses_reason m : In m (py_from_uses py g) <-> reason m.
  Proof.
    assert (HP := all_properties g (py_parse_uses py) (own py) m (parse_uses_own m)).
    unfold py_from_uses, py_parse_graph_uses, py_parse_composite_uses, py_parse_properties_uses in *.
    split.
    - rewrite !in_app_iff, !in_flat_map. intros [H|[(c & Hc & H)|[(e & He & H)|[H|[(c & Hc & H)|H]]]]].
      + destruct (graph_needs g (KPrim PDuration)) eqn:E; [|destruct H]. apply (needs_duration g HR) in E. unfold reason.
        destruct H as [<-|[<-|[]]]; [do 7 right|do 5 right; left]; auto.
      + apply in_app_or in H as [[<-|[<-|[<-|[]]]]|H]; [unfold reason; auto..|]. apply own_reason, HP. left. eauto.
      + apply in_app_or in H as [[<-|[<-|[<-|[]]]]|H]; [unfold reason; auto..|]. apply own_reason, HP. right; left. eauto.
      + destruct H as [<-|[<-|[<-|[]]]]; unfold reason; auto.
      + assert (NE : g_classes g <> []) by (intros E; now rewrite E in Hc). rewrite !in_app_iff in H. unfold reason.
        destruct H as [[<-|[]]|[H|[<-|[<-|[]]]]]; [do 6 right; left; auto| |auto..].
        destruct (c_id_pattern c) eqn:E; [|destruct H]. destruct H as [<-|[]]. do 7 right. split; [reflexivity|]. do 2 right.
        exists c. split; [exact Hc|congruence].
      + apply own_reason, HP. right; right. apply in_flat_map. exact H.
    - assert (HO : some_type g (fun u => mem m (own py u)) -> In m
        ((if graph_needs g (KPrim PDuration) then py_duration_from_string_uses else []) ++
         flat_map (fun c => [mod_typing; mod_types py; mod_parse py] ++ flat_map (fun p => py_parse_uses py (p_type p)) (c_props c)) (g_classes g) ++
         flat_map (fun e => [mod_typing; mod_types py; mod_parse py] ++ flat_map (fun p => py_parse_uses py (p_type p)) (e_props e)) (g_embeds g) ++
         [mod_typing; mod_types py; mod_parse py] ++
         flat_map (fun c => [mod_collections] ++ (if c_id_pattern c then [mod_re] else []) ++ [mod_types py; mod_parse py]) (g_classes g) ++
         flat_map (fun p => py_parse_uses py (p_type p)) (g_props g))).
      { intros H. apply HP in H as [(c & Hc & H)|[(e & He & H)|H]]; rewrite !in_app_iff, !in_flat_map.
        - right; left. exists c. split; [exact Hc|]. apply in_or_app. now right.
        - right; right; left. exists e. split; [exact He|]. apply in_or_app. now right.
        - apply in_flat_map in H. auto 8. }
      assert (HT : In m [mod_typing; mod_types py; mod_parse py] -> In m
        ((if graph_needs g (KPrim PDuration) then py_duration_from_string_uses else []) ++
         flat_map (fun c => [mod_typing; mod_types py; mod_parse py] ++ flat_map (fun p => py_parse_uses py (p_type p)) (c_props c)) (g_classes g) ++
         flat_map (fun e => [mod_typing; mod_types py; mod_parse py] ++ flat_map (fun p => py_parse_uses py (p_type p)) (e_props e)) (g_embeds g) ++
         [mod_typing; mod_types py; mod_parse py] ++
         flat_map (fun c => [mod_collections] ++ (if c_id_pattern c then [mod_re] else []) ++ [mod_types py; mod_parse py]) (g_classes g) ++
         flat_map (fun p => py_parse_uses py (p_type p)) (g_props g))).
      { intros H. do 3 (apply in_or_app; right). apply in_or_app. now left. }
      intros [->|[->|[->|[(-> & E & H)|[(Em & E & H)|[(-> & H)|[(-> & H)|(-> & H)]]]]]]].
      + apply HT. now left.
      + apply HT. right; now left.
      + apply HT. right; right; now left.
      + apply HO. eapply some_imp; [|exact H]. intros [] Ht; try discriminate Ht. apply mem_In. cbn [own]. rewrite E, str_eqb_refl. now left.
      + apply HO. eapply some_imp; [|exact H]. intros [] Ht; try discriminate Ht. apply mem_In. cbn [own]. rewrite E, str_eqb_refl.
        destruct Em as [->| ->]; cbn; auto.
      + destruct H as [H|H].
        * apply HO. eapply some_imp; [|exact H]. intros [] Ht; try discriminate Ht; apply mem_In; now left.
        * apply (needs_duration g HR) in H. rewrite H. apply in_or_app. left. cbn. auto.
      + destruct H as [H|H].
        * apply HO. eapply some_imp; [|exact H]. intros [] Ht; try discriminate Ht; apply mem_In; now left.
        * destruct (g_classes g) as [|c l]; [congruence|]. do 4 (apply in_or_app; right). apply in_or_app. left.
          apply in_flat_map. exists c. split; now left.
      + destruct H as [H|[H|(c & Hc & H)]].
        * apply HO. eapply some_imp; [|exact H]. intros [| | |[]|[]| | | | | | | | |] Ht; try discriminate Ht; apply mem_In; cbn [own].
          -- now left.
          -- apply in_or_app. right. now left.
        * apply (needs_duration g HR) in H. rewrite H. apply in_or_app. left. cbn. auto.
        * do 4 (apply in_or_app; right). apply in_or_app. left. apply in_flat_map. exists c. split; [exact Hc|].
          destruct (c_id_pattern c); [|congruence]. cbn. auto.
  Qed.

  Lemma from_imports_reason : exists l, py_from_imports py g = Ok l /\ forall m, In m l <-> reason m.
  Proof.
    destruct HS as (HP & HZ).
    assert (EP : exists l, (if graph_needs g (KPrim PPath) then
                 if str_eqb (pc_path_as py) (s_ "str") then Ok []
                 else if str_eqb (pc_path_as py) (s_ "pathlib.Path") then Ok [mod_pathlib]
                 else Raise NotImplementedError
               else Ok []) = Ok l /\ forall m, In m l <-> m = mod_pathlib /\ pc_path_as py = s_ "pathlib.Path" /\ some_type g is_path).
    { destruct (graph_needs g (KPrim PPath)) eqn:E.
      - apply needs_path in E. destruct HP as [<-|[<-|[]]].
        + eexists. split; [reflexivity|]. intros m. split; [intros []|intros (_ & D & _); discriminate D].
        + eexists. split; [reflexivity|]. intros m. split; [intros [<-|[]]; auto|intros (-> & _); now left].
      - eexists. split; [reflexivity|]. intros m. split; [intros []|]. intros (_ & _ & H). apply needs_path in H. congruence. }
    assert (EZ : exists l, (if graph_needs g (KPrim PTimeZone) then
                 if str_eqb (pc_timezone_as py) (s_ "str") then Ok []
                 else if str_eqb (pc_timezone_as py) (s_ "pytz.timezone") then Ok [mod_pytz; mod_pytz_exceptions]
                 else Raise NotImplementedError
               else Ok []) = Ok l /\ forall m, In m l <-> (m = mod_pytz \/ m = mod_pytz_exceptions) /\ pc_timezone_as py = s_ "pytz.timezone" /\ some_type g is_time_zone).
    { destruct (graph_needs g (KPrim PTimeZone)) eqn:E.
      - apply (needs_time_zone g HR) in E. destruct HZ as [<-|[<-|[]]].
        + eexists. split; [reflexivity|]. intros m. split; [intros []|intros (_ & D & _); discriminate D].
        + eexists. split; [reflexivity|]. intros m. split; [intros [<-|[<-|[]]]; auto|intros ([->| ->] & _); cbn; auto].
      - eexists. split; [reflexivity|]. intros m. split; [intros []|]. intros (_ & _ & H). apply (needs_time_zone g HR) in H. congruence. }
    destruct EP as (lp & EP & HLP). destruct EZ as (lz & EZ & HLZ).
    unfold py_from_imports. rewrite EP. cbn [bind]. rewrite EZ. cbn [bind]. eexists. split; [reflexivity|]. intros m.
    rewrite !in_app_iff. rewrite !(fun l => proj2 (import_declarations_exact l) m). rewrite !in_app_iff, !In_when, HLP, HLZ.
    rewrite needs_moment, needs_map, classes_b, orb_true_iff, id_patterns_b, iterate_some. unfold reason.
    rewrite (some_or g constrained is_duration py_needs_regex) by (intros [| | |[]|[]| | | | | | | | |]; reflexivity).
    cbn [In]. intuition (subst; auto).
  Qed.

  Lemma from_same : exists l, py_from_imports py g = Ok l /\ same_modules l (py_from_uses py g).
  Proof.
    destruct from_imports_reason as (l & E & H). exists l. split; [exact E|]. intros m. now rewrite H, from_uses_reason.
  Qed.

  Lemma to_same : same_modules (py_to_imports py g) (py_to_uses py g).
  Proof.
    intros m. unfold py_to_imports, py_to_uses, py_serialize_composite_uses.
    rewrite !in_app_iff, !(fun l => proj2 (import_declarations_exact l) m). rewrite in_app_iff, In_when, !in_flat_map. cbn [In].
    assert (U : forall t, In m (py_serialize_uses t) -> m = mod_collections).
    { induction t; cbn [py_serialize_uses]; try (now intros []); auto. intros [<-|H]; auto. }
    assert (UL : forall ps, In m (flat_map (fun p => py_serialize_uses (p_type p)) ps) -> m = mod_collections).
    { intros ps H. apply in_flat_map in H as (q & _ & H). eauto. }
    split.
    - intros [[[<-|[<-|[]]]|(E & [<-|[]])]|[<-|[]]]; auto 10. rewrite E. left. now left.
    - intros [H|[(c & _ & H)|[(e & _ & H)|[H|(c & _ & [<-|[]])]]]]; auto 6.
      + destruct (graph_needs g (KPrim PDuration)); [|destruct H]. destruct H as [<-|[]]. auto.
      + apply in_app_or in H as [[<-|[<-|[<-|[]]]]|H]; auto 6. apply UL in H as ->. auto.
      + apply in_app_or in H as [[<-|[<-|[<-|[]]]]|H]; auto 6. apply UL in H as ->. auto.
      + destruct H as [[<-|[<-|[<-|[]]]]|(q & _ & H)]; auto 6. apply U in H as ->. auto.
  Qed.

  Lemma parse_same : same_modules (py_parse_imports py) (py_parse_module_uses py g).
  Proof.
    intros m. unfold py_parse_imports, py_parse_module_uses. rewrite !in_app_iff, !(fun l => proj2 (import_declarations_exact l) m), !in_flat_map.
    cbn [In]. split; [intuition|]. intros [H|[(c & _ & H)|[(e & _ & H)|H]]]; auto.
  Qed.
End Python.
