(** Proofs about the types in the generated C++ functions. *)
From Coq Require Import String List Arith NArith ZArith Bool Lia.
From Verif Require Import Base M_Naming M_Schema M_Dec M_TypeGraph M_GoImports M_AutoID S_Scope M_Scope M_GoScope M_CppScope
  P_Common P_AutoID P_Scope P_BlockScope P_CppScope S_Compare S_CppTyping M_CppTyping.
Import ListNotations.
Open Scope list_scope.
Local Open Scope nat_scope.

(** * Environments which grow by the variables of the templates *)

Definition fixed_things : list thing := map Own ["expected_but_got"; "invalid_duration"; "reference_not_found"; "regex"; "e"]%string.
(** The variables of the code for a value, from the number [n] on; [inner] without the value *)
Inductive later (n : nat) : thing -> Prop :=
| later_num s k : In (s_ s) cpp_stems -> n <= k -> later n (cnum s k)
| later_cast k : n <= k -> later n (Auto (cast_str k))
| later_fixed x : In x fixed_things -> later n x.
Definition inner (n : nat) (x : thing) : Prop := later n x /\ x <> cnum "value_" n.

Lemma later_le n m x : n <= m -> later m x -> later n x.
Proof. intros L [s k H1 H2|k H|y H]; [apply later_num; [exact H1|lia]|apply later_cast; lia|now apply later_fixed]. Qed.
Lemma cnum_neq s k s' k' : In (s_ s) cpp_stems -> In (s_ s') cpp_stems -> s_ s <> s_ s' \/ k <> k' -> cnum s k <> cnum s' k'.
Proof. intros H1 H2 Hn [= E]. apply auto_apart in E as [E1 E2]; [|assumption|assumption]. destruct Hn; congruence. Qed.
Lemma cast_neq s k k' : Auto (cast_str k') <> cnum s k.
Proof. intros [= E]. assert (E' := auto_last s k). rewrite <- E, cast_str_last in E'. discriminate. Qed.
Lemma cast_neq' s k k' : cnum s k <> Auto (cast_str k').
Proof. intros E. symmetry in E. now apply cast_neq in E. Qed.
Lemma next_inner n x : later (S n) x -> inner n x.
Proof.
  intros H. split; [now apply (later_le n (S n)); [lia|]|]. destruct H as [s k H1 H2|k H|y H].
  - apply cnum_neq; [exact H1|stem|right; lia].
  - apply cast_neq.
  - intros ->. cbn in H. intuition discriminate.
Qed.
Lemma inner_later n x : inner n x -> later n x. Proof. now intros [H _]. Qed.
Lemma inner_fixed n x : In x fixed_things -> inner n x.
Proof. intros H. split; [now apply later_fixed|]. intros ->. cbn in H. intuition discriminate. Qed.

Definition extends (A : thing -> Prop) (G G' : cenv) : Prop := exists D, G' = D ++ G /\ Forall (fun p => A (fst p)) D.
Definition always (A : thing -> Prop) (G : cenv) (P : cenv -> Prop) : Prop := forall G', extends A G G' -> P G'.
Lemma extends_refl A G : extends A G G.
Proof. exists []. split; [reflexivity|constructor]. Qed.
Lemma extends_trans (A B : thing -> Prop) G G' G'' : (forall x, B x -> A x) -> extends A G G' -> extends B G' G'' -> extends A G G''.
Proof.
  intros H (D & -> & HD) (D' & -> & HD'). exists (D' ++ D). split; [now rewrite app_assoc|]. apply Forall_app. split; [|exact HD].
  eapply Forall_impl; [|exact HD']. intros p. apply H.
Qed.
Lemma extends_cons (A : thing -> Prop) G G' x t : A x -> extends A G G' -> extends A G ((x, t) :: G').
Proof. intros Hx (D & -> & HD). exists ((x, t) :: D). split; [reflexivity|]. now constructor. Qed.
Lemma always_here A G P : always A G P -> P G.
Proof. intros H. apply H, extends_refl. Qed.
Lemma always_sub (A B : thing -> Prop) G G' P : (forall x, B x -> A x) -> extends A G G' -> always A G P -> always B G' P.
Proof. intros HB HE H G'' HE'. apply H. now apply (extends_trans A B G G'). Qed.
Lemma always_impl A G (P Q : cenv -> Prop) : (forall G', P G' -> Q G') -> always A G P -> always A G Q.
Proof. intros H HP G' HE. apply H. now apply HP. Qed.
Lemma known_app D G x t c : ~ In x (map fst D) -> known G x t c -> known (D ++ G) x t c.
Proof.
  induction D as [|[y u] D IH]; intros Hn H; [exact H|]. cbn [app]. apply known_before; [intros ->; apply Hn; now left|].
  apply IH; [|exact H]. intros Hin. apply Hn. now right.
Qed.
Lemma known_always (A : thing -> Prop) G x t c : ~ A x -> known G x t c -> always A G (fun G' => known G' x t c).
Proof.
  intros Hx H G' (D & -> & HD). apply known_app; [|exact H]. intros Hin. apply in_map_iff in Hin as (p & <- & Hp).
  rewrite Forall_forall in HD. now apply Hx, HD.
Qed.
Lemma later_own n r : existsb (fun x => match x with Own r' => String.eqb r r' | _ => false end) fixed_things = false -> ~ later n (Own r).
Proof.
  intros H HL. inversion HL as [s k H1 H2 E|k H1 E|x Hin E]; try discriminate. subst.
  assert (C : existsb (fun x => match x with Own r' => String.eqb r r' | _ => false end) fixed_things = true).
  { apply existsb_exists. exists (Own r). split; [exact Hin|apply String.eqb_refl]. }
  congruence.
Qed.
Lemma later_for n r c : ~ later n (For r c).
Proof. intros HL. inversion HL as [s k H1 H2 E|k H1 E|x Hin E]; try discriminate. subst. cbn in Hin. intuition discriminate. Qed.
Lemma later_below n s k : In (s_ s) cpp_stems -> k < n -> ~ later n (cnum s k).
Proof.
  intros Hs Hk HL. inversion HL as [s' k' H1 H2 E|k' H1 E|x Hin E].
  - apply auto_apart in E as [_ E]; [lia|assumption|assumption].
  - apply (cast_neq s k k'). now rewrite E.
  - subst. cbn in Hin. intuition discriminate.
Qed.

Ltac differ := first
  [ discriminate
  | apply cnum_neq; [stem|stem|first [left; discriminate | right; lia]]
  | apply cast_neq | apply cast_neq' ].
Ltac kn := repeat first [apply known_here | apply known_before; [differ|] | assumption].
Ltac var := apply has_var with (c := false); kn.
Ltac cvar := apply has_var with (c := true); kn.
Ltac in_fixed := cbn; repeat (first [left; reflexivity | right]).
Ltac grows := first [ assumption
  | match goal with |- inner _ (Own _) => apply inner_fixed; in_fixed end
  | match goal with |- inner _ _ => split; [first [apply later_num; [stem|lia] | apply later_cast; lia]|differ] end
  | apply later_num; [stem|lia] | apply later_cast; lia | apply later_fixed; in_fixed ].
Ltac ext := repeat first [apply extends_refl | apply extends_cons; [grows|] | assumption].
(** The conclusion holds by a hypothesis [always]. *)
Ltac by_always := match goal with H : always ?A ?G ?P |- _ => first [exact (H _ ltac:(ext)) | refine (H _ _); [ext]] end.
Ltac member_in := cbn; repeat (first [left; reflexivity | right]).

Section Typing.
  Variable cpp : cpp_conf.
  Variable g : graph.
  Variable so : source.
  Notation has := (has so).
  Notation applies := (applies so).
  Notation overload := (overload so).
  Notation cty := (cpp_ty cpp).

  Definition unique (f : str) (s : csignature) : Prop := overload f s /\ forall s', overload f s' -> s' = s.
  Hypothesis Hlibrary : forall f s, In (f, s) library_calls -> unique f s.
  Hypothesis Hmessage : unique (s_ "message") (CSig [ByValue CText; ByValue CUnsigned; ByValue CString] CString).
  Hypothesis Htype : unique (s_ "value_type_to_string") (CSig [ByValue t_value_type] CString).

  Lemma call_has G f s args : unique f s -> applies G args (cs_params s) -> has G (ECall f args) (cs_result s) Temporary.
  Proof. intros [H1 H2] H. apply has_call; [exact H1|exact H|]. intros s' H'. left. now apply H2. Qed.
  Lemma library_call G f ps r args : lookup f library_calls = Some (CSig ps r) -> applies G args ps -> has G (ECall f args) r Temporary.
  Proof. intros Hl H. apply (call_has G f (CSig ps r)); [apply Hlibrary; now apply lookup_In|exact H]. Qed.

  (** * The pieces of the templates *)
  Definition errors_at (G : cenv) : Prop := known G (Own "errors") (CPointer false t_parse_errors) false.
  Definition value_ready (v : cexpr) (G : cenv) : Prop := exists k, has G v t_value k.
  Definition textual (e : cexpr) (G : cenv) : Prop := exists t k, has G e t k /\ converts t k CString.
  Definition stringy (e : cexpr) (G : cenv) : Prop := exists k, has G e CString k.
  Definition ref_ready (ref : list cexpr) (G : cenv) : Prop :=
    match ref with e :: rest => stringy e G /\ Forall (fun e => textual e G) rest | [] => False end.

  Lemma string_copy k : converts CString k CString.
  Proof. apply converts_copy. cbn. tauto. Qed.
  Lemma stringy_textual e G : stringy e G -> textual e G.
  Proof. intros (k & H). exists CString, k. split; [exact H|apply string_copy]. Qed.
  Lemma text_textual x G : textual (EText x) G.
  Proof. exists CText, Temporary. split; [apply has_text|apply converts_text]. Qed.
  Lemma textual_arg G e args p params : textual e G -> p = ByReference CString \/ p = ByValue CString -> applies G args params -> applies G (e :: args) (p :: params).
  Proof. intros (t & k & H & Hc) Hp Ha. eapply applies_arg; [exact H| |exact Ha]. destruct Hp as [->| ->]; cbn [fits]; [now right|exact Hc]. Qed.

  Lemma joined_has G ref : ref_ready ref G -> stringy (join_parts ref) G.
  Proof.
    destruct ref as [|e rest]; [easy|]. intros ((k & He) & Hrest). destruct rest as [|y rest]; [now exists k|]. cbn [join_parts].
    remember (y :: rest) as l eqn:El. clear El y rest.
    assert (HB : exists k', k' <> Constant /\ has G (EConstruct CString [e]) CString k').
    { exists Temporary. split; [discriminate|]. eapply has_construct; [now left|]. eapply applies_arg; [exact He|now left|constructor]. }
    revert HB. generalize (EConstruct CString [e]) as x. clear He. induction Hrest as [|y l Hy _ IH]; intros x (k' & Hk & Hx); cbn [fold_left]; [now exists k'|].
    apply IH. exists Changeable. split; [discriminate|]. unfold cmeth.
    eapply (has_method so G x CString k' (s_ "append") (Member false [ByReference CString] CString Changeable)); [exact Hx|reflexivity|congruence|].
    cbn [mb_params]. apply textual_arg; [exact Hy|now left|constructor].
  Qed.
  (** A member function without arguments *)
  Lemma read_has G e t k m u : has G e t k -> (forall c, members t c (s_ m) = Some (reads [] u)) -> has G (cmeth e m []) u Temporary.
  Proof. intros He Hm. eapply (has_method so G e t k (s_ m) (reads [] u)); [exact He|apply Hm|reflexivity|constructor]. Qed.
  Lemma value_read G v m u : value_ready v G -> lookup (s_ m) value_members = Some (reads [] u) -> has G (cmeth v m []) u Temporary.
  Proof. intros (k & Hv) Hm. eapply read_has; [exact Hv|intros c; exact Hm]. Qed.
  Lemma as_string G v : value_ready v G -> has G (cmeth v "asString" []) CString Temporary.
  Proof. intros H. now apply value_read. Qed.
  Lemma errors_has G : errors_at G -> has G (EDeref (cown "errors")) t_parse_errors Changeable.
  Proof. intros H. apply (has_deref so G _ false _ Changeable). apply (has_var so G _ _ false H). Qed.
  Lemma full_has G : errors_at G -> has G (at_errors "full" []) CBool Temporary.
  Proof. intros H. eapply read_has; [now apply errors_has|reflexivity]. Qed.
  Lemma no_errors_has G : errors_at G -> has G (at_errors "empty" []) CBool Temporary.
  Proof. intros H. eapply read_has; [now apply errors_has|reflexivity]. Qed.
  Lemma not_has G e : (exists k, has G e CBool k) -> has G (ENot e) CBool Temporary.
  Proof. intros (k & H). eapply has_not; [exact H|exact I]. Qed.
  Lemma type_of_has G v : value_ready v G -> stringy (type_of v) G.
  Proof.
    intros H. exists Temporary. apply (call_has G _ _ _ Htype). cbn [cs_params]. eapply applies_arg; [now apply value_read|apply converts_move|constructor].
  Qed.

  Section Result.
    Variable result : ctype.
    Notation sound := (sound so result).

    Lemma if_bool loop G e b c l : has G e CBool Temporary -> sound loop G b -> sound loop G c -> sound loop G l -> sound loop G (KIf e b c :: l).
    Proof. intros H. now apply (sound_if so result loop G e CBool Temporary). Qed.
    Lemma add_sound loop G ref text l : errors_at G -> textual ref G -> textual text G -> sound loop G l -> sound loop G (KDo (at_errors "add" [ref; text]) :: l).
    Proof.
      intros He Hr Ht Hl. eapply sound_do; [exact I| |exact Hl].
      eapply (has_method so G _ t_parse_errors Changeable (s_ "add") (changes [ByReference CString; ByReference CString])); [now apply errors_has|reflexivity|discriminate|].
      cbn [changes mb_params]. apply textual_arg; [exact Hr|now left|]. apply textual_arg; [exact Ht|now left|constructor].
    Qed.
    Lemma add_error_sound loop G text is' ref about l :
      let G1 := (Own text, (CText, true)) :: G in
      errors_at G1 -> ref_ready ref G1 -> textual about G1 -> sound loop G1 l -> sound loop G (add_error text is' ref about ++ l).
    Proof.
      intros G1 He Hr Ha Hl. unfold add_error. cbn [app]. eapply sound_auto; [apply has_text|apply converts_move|]. fold G1.
      apply add_sound; [exact He|now apply stringy_textual, joined_has| |exact Hl]. apply stringy_textual. exists Temporary. apply (call_has G1 _ _ _ Hmessage). cbn [cs_params].
      assert (HT : has G1 (cown text) CText Constant) by (apply (has_var so G1 _ _ true); apply known_here).
      assert (HC : forall k, converts CText k CText) by (intros k; apply converts_copy; cbn; tauto).
      eapply applies_arg; [exact HT|apply HC|]. eapply applies_arg; [eapply (library_call G1 (s_ "strlen")); [reflexivity|]|apply converts_move|].
      - cbn [cs_params]. eapply applies_arg; [exact HT|apply HC|constructor].
      - apply textual_arg; [exact Ha|now right|constructor].
    Qed.
    Lemma full_sound s G loop l : errors_at G -> (forall l', sound loop G l' -> sound loop G (s :: l')) -> sound loop G l -> sound loop G (stop_if_full s :: l).
    Proof. intros He Hs Hl. eapply sound_if; [now apply full_has|exact I|apply Hs; constructor|constructor|exact Hl]. Qed.

    (** The assignments: to a member, to an optional one, or to a bit of an array *)
    Definition undated (t : ty) : Prop := match t with TDate _ | TDatetime _ => cpp_ctime cpp = true | _ => True end.
    Definition target_ready (t : ty) (tg : cexpr) (G : cenv) : Prop :=
      has G tg (cty t) Changeable \/
      (has G tg (COptional (cty t)) Changeable /\ is_compound t = false /\ undated t) \/
      (t = TBool /\ exists j, has G tg CBit j).
    Lemma store_sound loop G t tg e u k l : target_ready t tg G -> has G e u k -> converts u k (cty t) -> (t = TBool -> u = CBool) ->
      sound loop G l -> sound loop G (KAssign tg e :: l).
    Proof.
      intros [H|[(H & _)|(-> & j & H)]] He Hc Hb Hl.
      - eapply sound_assign; [exact H|exact He|exact Hc|exact Hl].
      - eapply sound_assign; [exact H|exact He|now apply converts_optional|exact Hl].
      - rewrite (Hb eq_refl) in He. eapply sound_assign_bit; [exact H|exact He|exact Hl].
    Qed.
    Lemma target_compound t tg G : is_compound t = true -> target_ready t tg G -> has G tg (cty t) Changeable.
    Proof. intros Ht [H|[(H & E & _)|(-> & _)]]; [exact H|congruence|discriminate]. Qed.

    (** * Parsing *)
    Section Parse.
      Variable instances : cls -> cexpr.

      (** The function which parses an embed can be called. *)
      Definition parser_callable (name : str) (references : list cls) : Prop :=
        forall G v regs r tg e, length regs = length references ->
          applies G (v :: regs ++ [r; tg; e]) (map snd (parser_params name references)) ->
          (exists k, has G tg (CPointer false (CNamed (ucamel name))) k) -> has G (ECall (cpp_from name) (v :: regs ++ [r; tg; e])) CVoid Temporary.
      (** What a type needs of the source, of the registries and of its constants *)
      Fixpoint supported (reg : cls -> Prop) (t : ty) : Prop :=
        literals_fit t /\
        match t with
        | TPath _ => In (cc_path_as cpp) paths
        | TDuration => unique (s_ "duration_from_string") (CSig [ByReference CString; ByValue (CPointer false CString)] t_nanoseconds)
        | TArray values _ _ | TMap values => supported reg values
        | TClass n => exists c, find_class g n = Some c /\ reg c
        | TEmbed n => parser_callable n (embed_references g n) /\ forall c, In c (embed_references g n) -> reg c
        | _ => True
        end.
      Lemma supported_impl (P Q : cls -> Prop) t : (forall c, P c -> Q c) -> supported P t -> supported Q t.
      Proof.
        intros H. induction t; cbn [supported]; try tauto; intros (H1 & H2); (split; [exact H1|]).
        - destruct H2 as (c & E & Hc). exists c. split; [exact E|]. now apply H.
        - destruct H2 as [E Hc]. split; [exact E|]. intros c Hin. apply H. now apply Hc.
      Qed.
      Definition registry_ready (A : thing -> Prop) (G : cenv) (c : cls) : Prop := always A G (fun G' => exists k, has G' (instances c) (t_instances c) k).

      (** The head of the templates *)
      Lemma head_sound simple value n loop G l : 
        always (later n) G (value_ready value) ->
        (forall G', extends (later n) G G' -> always (inner n) G' (value_ready (value_of simple value n)) -> sound loop G' l) ->
        sound loop G (name_value simple value n ++ l).
      Proof.
        intros Hv Hl. unfold name_value, value_of in *. destruct simple; cbn [app].
        - apply Hl; [apply extends_refl|]. apply (always_sub (later n) (inner n) G G); [apply inner_later|apply extends_refl|exact Hv].
        - destruct (always_here _ _ _ Hv) as (k & HV). eapply sound_constant_reference; [exact HV|]. apply Hl; [ext|].
          apply (always_impl _ _ (fun G' => known G' (cnum "value_" n) t_value true)).
          + intros G' HK. exists Constant. apply (has_var so G' _ _ true HK).
          + apply known_always; [intros [_ C]; now apply C|apply known_here].
      Qed.
      Lemma test_type_sound is' text simple value ref n loop G rest l :
        lookup (s_ is') value_members = Some (reads [] CBool) ->
        always (later n) G (value_ready value) -> always (later n) G (ref_ready ref) -> always (later n) G errors_at ->
        (forall G', extends (later n) G G' -> always (inner n) G' (value_ready (value_of simple value n)) -> sound loop G' rest) ->
        (forall G', extends (later n) G G' -> sound loop G' l) ->
        sound loop G (test_type is' text simple value ref n rest ++ l).
      Proof.
        intros Hi Hv Hr He Hrest Hl. unfold test_type. rewrite <- app_assoc. apply head_sound; [exact Hv|]. intros G' HE HV.
        set (v := value_of simple value n) in *. cbn [app]. apply if_bool; [| |now apply Hrest|now apply Hl].
        - apply not_has. exists Temporary. apply value_read; [exact (always_here _ _ _ HV)|exact Hi].
        - rewrite <- (app_nil_r (add_got _ _ _)). unfold add_got.
          assert (HE1 : extends (later n) G ((Own "expected_but_got", (CText, true)) :: G')) by (apply extends_cons; [apply later_fixed; in_fixed|exact HE]).
          apply add_error_sound; [now apply He|now apply Hr| |constructor]. apply stringy_textual, type_of_has. by_always.
      Qed.

      Lemma bool_copy k : converts CBool k CBool. Proof. apply converts_copy. cbn. tauto. Qed.
      Lemma false_has G : has G (EConstant (s_ "false")) CBool Constant.
      Proof. now apply has_constant. Qed.
      Lemma true_has G : has G (EConstant (s_ "true")) CBool Constant.
      Proof. now apply has_constant. Qed.
      Lemma not_ok_sound n loop G l : known G (cnum "ok_" n) CBool false -> sound loop G l -> sound loop G (not_ok n :: l).
      Proof. intros H Hl. eapply sound_assign; [apply (has_var so G _ _ false H)|apply false_has|apply bool_copy|exact Hl]. Qed.

      Lemma test_bound_sound op z ref n loop G t c l :
        numeric t -> match z with Some z => literal_fits z | None => True end ->
        known G (cnum "cast_" n) t c -> known G (cnum "ok_" n) CBool false ->
        always (inner n) G (ref_ready ref) -> always (inner n) G errors_at ->
        sound loop G l -> sound loop G (test_bound op z ref n ++ l).
      Proof.
        intros Ht Hz Hc Ho Hr He Hl. unfold test_bound. destruct z as [z|]; [|exact Hl]. cbn [app].
        assert (HC : has G (cvar "cast_" n) t (lvalue c)) by (now apply has_var).
        apply if_bool; [| |constructor|exact Hl].
        - apply not_has. exists Temporary. eapply has_order; [exact HC|now apply has_number|exact Ht|]. unfold literal_type. destruct (_ <? _)%Z; cbn; tauto.
        - unfold add_got. apply add_error_sound; [by_always|by_always| |].
          + exists CString, Temporary. split; [|apply converts_move]. apply has_to_string with t (lvalue c); [apply has_var; kn|exact Ht].
          + apply not_ok_sound; [kn|constructor].
      Qed.
      Lemma bounded_sound as_it b v tg ref n loop G t u :
        (forall k, converts u k (cty t)) -> (t <> TBool) -> numeric u -> copyable u -> lookup (s_ as_it) value_members = Some (reads [] u) ->
        match b_min b with Some z => literal_fits z | None => True end -> match b_max b with Some z => literal_fits z | None => True end ->
        always (inner n) G (value_ready v) -> always (inner n) G (target_ready t tg) -> always (inner n) G (ref_ready ref) -> always (inner n) G errors_at ->
        sound loop G (bounded as_it b v tg ref n).
      Proof.
        intros Hu Ht Hnu Hcu Ha H1 H2 Hv Htg Hr He. unfold bounded.
        assert (HA : has G (cmeth v as_it []) u Temporary) by (apply value_read; [exact (always_here _ _ _ Hv)|exact Ha]).
        assert (HB : forall mn mx, match mn with Some z => literal_fits z | None => True end -> match mx with Some z => literal_fits z | None => True end ->
          sound loop G ([KAuto true (cnum "cast_" n) (cmeth v as_it []); let_ok n] ++
            test_bound (if b_exmin b then IsGreater else IsAtLeast) mn ref n ++ test_bound (if b_exmax b then IsLess else IsAtMost) mx ref n ++
            [KIf (cvar "ok_" n) [KAssign tg (cvar "cast_" n)] []])).
        { intros mn mx Hmn Hmx. cbn [app]. eapply sound_auto; [exact HA|apply converts_move|]. eapply sound_let; [apply true_has|apply bool_copy|].
          set (G1 := _ :: _ :: G). assert (HE : extends (inner n) G G1) by (unfold G1; ext).
          assert (S1 : always (inner n) G1 (ref_ready ref)) by (now apply (always_sub (inner n) (inner n) G)).
          assert (S2 : always (inner n) G1 errors_at) by (now apply (always_sub (inner n) (inner n) G)).
          assert (S3 : known G1 (cnum "cast_" n) u true) by (unfold G1; kn).
          assert (S4 : known G1 (cnum "ok_" n) CBool false) by (unfold G1; kn).
          apply (test_bound_sound _ _ _ _ _ _ u true); auto. apply (test_bound_sound _ _ _ _ _ _ u true); auto.
          eapply sound_if; [apply (has_var so G1 _ _ false S4)|exact I| |constructor|constructor].
          eapply store_sound; [exact (Htg _ HE)|apply (has_var so G1 _ _ true S3)|apply Hu|congruence|constructor]. }
        destruct (b_min b) as [mn|], (b_max b) as [mx|]; try (apply HB; assumption).
        eapply store_sound; [exact (always_here _ _ _ Htg)|exact HA|apply Hu|congruence|constructor].
      Qed.

      Lemma matching_sound p regex set v tg ref n loop G t :
        regex = cnum "regex_" n \/ regex = Own "regex" -> t <> TBool ->
        always (inner n) G (value_ready v) -> always (inner n) G (target_ready t tg) -> always (inner n) G (ref_ready ref) -> always (inner n) G errors_at ->
        (forall G', extends (inner n) G G' -> known G' (cnum "cast_" n) CString true -> exists u k, has G' set u k /\ converts u k (cty t)) ->
        sound loop G (matching p regex set v tg ref n).
      Proof.
        intros Hx Ht Hv Htg Hr He Hset. unfold matching.
        assert (Hix : inner n regex) by (destruct Hx as [->| ->]; grows).
        assert (N1 : regex <> cnum "cast_" n) by (destruct Hx as [->| ->]; differ).
        assert (N2 : regex <> cnum "ok_" n) by (destruct Hx as [->| ->]; differ).
        assert (N3 : cnum "cast_" n <> regex) by congruence. assert (N4 : cnum "ok_" n <> regex) by congruence.
        eapply sound_let; [eapply has_construct; [right; right; right; left; split; reflexivity|apply textual_arg; [apply text_textual|now left|constructor]]|apply converts_move|].
        eapply sound_let; [apply as_string; by_always|apply string_copy|]. eapply sound_let; [apply true_has|apply bool_copy|].
        set (G1 := _ :: _ :: _ :: G). assert (HE : extends (inner n) G G1) by (unfold G1; ext).
        assert (S1 : known G1 (cnum "cast_" n) CString true) by (unfold G1; kn).
        assert (S2 : known G1 (cnum "ok_" n) CBool false) by (unfold G1; kn).
        assert (S3 : known G1 regex t_regex true) by (unfold G1; apply known_before; [exact N2|]; apply known_before; [exact N1|]; apply known_here).
        apply if_bool; [| |constructor|].
        - apply not_has. exists Temporary. eapply (library_call G1 (s_ "std::regex_match")); [reflexivity|]. cbn [cs_params].
          eapply applies_arg; [apply (has_var so G1 _ _ true S1)|now left|]. eapply applies_arg; [apply (has_var so G1 _ _ true S3)|now left|constructor].
        - unfold add_got. assert (HE1 : extends (inner n) G ((Own "expected_but_got", (CText, true)) :: G1)) by ext.
          apply add_error_sound; [exact (He _ HE1)|exact (Hr _ HE1)| |].
          + apply stringy_textual. exists Constant. apply (has_var so _ _ _ true). apply known_before; [differ|exact S1].
          + apply not_ok_sound; [|constructor]. apply known_before; [differ|exact S2].
        - eapply sound_if; [apply (has_var so G1 _ _ false S2)|exact I| |constructor|constructor].
          destruct (Hset G1 HE S1) as (u & k & H1 & H2). eapply store_sound; [exact (Htg _ HE)|exact H1|exact H2|congruence|constructor].
      Qed.

      Lemma with_strptime_sound f v tg ref n loop G t :
        cty t = t_tm -> always (inner n) G (value_ready v) -> always (inner n) G (target_ready t tg) -> always (inner n) G (ref_ready ref) -> always (inner n) G errors_at ->
        sound loop G (with_strptime f v tg ref n).
      Proof.
        intros Et Hv Htg Hr He. unfold with_strptime.
        eapply sound_let; [apply as_string; by_always|apply string_copy|].
        eapply sound_let; [eapply has_construct; [right; right; left; split; reflexivity|]|apply converts_move|].
        { eapply applies_arg; [apply has_number; unfold literal_fits; cbn; lia|apply converts_move|constructor]. }
        eapply sound_let; [eapply (library_call _ (s_ "strptime")); [reflexivity|]|apply converts_move|].
        { cbn [cs_params]. eapply applies_arg; [eapply read_has; [cvar|reflexivity]|apply converts_move|].
          eapply applies_arg; [apply has_text|apply converts_move|]. eapply applies_arg; [apply has_address; var|apply converts_move|constructor]. }
        set (G1 := _ :: _ :: _ :: G). assert (HE : extends (inner n) G G1) by (unfold G1; ext).
        assert (S1 : known G1 (cnum "cast_" n) CString true) by (unfold G1; kn).
        assert (S2 : known G1 (cnum "ret_" n) (CPointer false CChar) false) by (unfold G1; kn).
        assert (S3 : known G1 (cnum "tm_" n) t_tm false) by (unfold G1; kn).
        assert (HR : has G1 (cvar "ret_" n) (CPointer false CChar) Changeable) by (apply (has_var so G1 _ _ false S2)).
        apply if_bool; [| | |constructor].
        - eapply has_or; [eapply has_equal_null; exact HR|exact I|eapply has_equal; [eapply has_deref; exact HR|constructor|cbn; tauto]|exact I].
        - rewrite <- (app_nil_r (add_got _ _ _)). unfold add_got.
          assert (HE1 : extends (inner n) G ((Own "expected_but_got", (CText, true)) :: G1)) by ext.
          apply add_error_sound; [exact (He _ HE1)|exact (Hr _ HE1)| |constructor].
          apply stringy_textual. exists Constant. apply (has_var so _ _ _ true). apply known_before; [differ|exact S1].
        - eapply store_sound; [exact (Htg _ HE)|apply (has_var so G1 _ _ false S3)|rewrite Et; apply converts_copy; cbn; tauto| |constructor].
          intros ->. discriminate.
      Qed.
      Lemma with_stream_sound f into set v ref n loop G t :
        dated t -> always (inner n) G (fun G' => has G' into t Changeable) ->
        always (inner n) G (value_ready v) -> always (inner n) G (ref_ready ref) -> always (inner n) G errors_at ->
        (forall G', extends (inner n) G G' -> sound loop G' set) ->
        sound loop G (with_stream f into set v ref n).
      Proof.
        intros Ht Hi Hv Hr He Hset. unfold with_stream.
        eapply sound_let; [eapply has_construct; [right; right; right; right; left; split; reflexivity|]|apply converts_move|].
        { apply textual_arg; [apply stringy_textual; eexists; apply as_string; by_always|now left|constructor]. }
        set (G1 := _ :: G). assert (HE : extends (inner n) G G1) by (unfold G1; ext).
        assert (HS : has G1 (cvar "iss_" n) t_stream Changeable) by (unfold G1; var).
        eapply sound_do; [exact I|eapply has_extract; [exact HS|eapply has_parse; [constructor|exact (Hi _ HE)|exact Ht]]|].
        eapply sound_if; [eapply read_has; [exact HS|reflexivity]|exact I| |now apply Hset|constructor].
        rewrite <- (app_nil_r (add_got _ _ _)). unfold add_got.
        assert (HE1 : extends (inner n) G ((Own "expected_but_got", (CText, true)) :: G1)) by ext.
        apply add_error_sound; [exact (He _ HE1)|exact (Hr _ HE1)| |constructor]. apply stringy_textual. eexists. apply as_string. exact (Hv _ HE1).
      Qed.
      Lemma test_size_sound op which z v ref n loop G rest :
        match z with Some z => literal_fits z | None => True end ->
        always (inner n) G (value_ready v) -> always (inner n) G (ref_ready ref) -> always (inner n) G errors_at ->
        sound loop G rest -> sound loop G (test_size op which z v ref rest).
      Proof.
        intros Hz Hv Hr He Hl. unfold test_size. destruct z as [z|]; [|exact Hl].
        assert (HS : forall G', value_ready v G' -> has G' (cmeth v "size" []) CUnsigned Temporary) by (intros G' H; now apply value_read).
        apply if_bool; [| |exact Hl|constructor].
        - eapply has_order; [apply HS; by_always|now apply has_number|cbn; tauto|]. unfold literal_type. destruct (_ <? _)%Z; cbn; tauto.
        - rewrite <- (app_nil_r (add_got _ _ _)). unfold add_got. apply add_error_sound; [by_always|by_always| |constructor].
          apply stringy_textual. exists Temporary. eapply has_to_string; [apply HS; by_always|cbn; tauto].
      Qed.

      Lemma cparse_next t : forall simple v tg ref n, n < snd (cparse cpp g instances t simple v tg ref n).
      Proof.
        induction t as [|b|b|pt|pt|fm|fm|fm| | |t IH mn mx|t IH|c|e]; intros simple v tg ref n; cbn [cparse snd]; try lia.
        all: match goal with |- context[cparse cpp g instances ?u ?s ?v ?tg ?r ?m] => specialize (IH s v tg r m); destruct (cparse cpp g instances u s v tg r m) as [item n'] end.
        all: cbn [snd] in *; lia.
      Qed.

      Lemma number_arg_zero G : has G (ENumber 0) CInt Temporary.
      Proof. change CInt with (literal_type 0). apply has_number. unfold literal_fits. cbn. lia. Qed.
      Lemma ref_app ref more G : ref_ready ref G -> Forall (fun e => textual e G) more -> ref_ready (ref ++ more) G.
      Proof. destruct ref as [|e rest]; [easy|]. intros [H1 H2] H. cbn [app]. split; [exact H1|]. now apply Forall_app. Qed.
      Lemma applies_app G a b ps qs : applies G a ps -> applies G b qs -> applies G (a ++ b) (ps ++ qs).
      Proof. induction 1 as [|e args p params t k H1 H2 _ IH]; intros H; [exact H|]. cbn [app]. eapply applies_arg; [exact H1|exact H2|now apply IH]. Qed.
      Lemma applies_registries G l (f : cls -> cexpr) : (forall c, In c l -> exists k, has G (f c) (t_instances c) k) ->
        applies G (map f l) (map snd (map (fun c => (For "registry" (c_name c), ByReference (t_instances c))) l)).
      Proof.
        intros H. induction l as [|c l IH]; cbn [map]; [constructor|]. destruct (H c) as (k & Hk); [now left|].
        eapply applies_arg; [exact Hk|now left|apply IH; intros c' Hc'; apply H; now right].
      Qed.

      Ltac inners := first [ apply (always_sub (later _) (inner _) _ _ _ (inner_later _) ltac:(eassumption)); eassumption | eassumption ].

      (** The code for a value is sound, and so is what follows in the variables it declares. *)
      Lemma cparse_sound t : forall simple value tg ref n loop G l,
        always (later n) G (value_ready value) -> always (later n) G (target_ready t tg) -> always (later n) G (ref_ready ref) -> always (later n) G errors_at ->
        supported (registry_ready (later n) G) t ->
        (forall G', extends (later n) G G' -> sound loop G' l) ->
        sound loop G (fst (cparse cpp g instances t simple value tg ref n) ++ l).
      Proof.
        induction t as [|b|b|pt|pt|fm|fm|fm| | |t IH mn mx|t IH|c|e]; intros simple value tg ref n loop G l Hv Htg Hr He HS Hl;
          cbn [cparse fst].
        - (* bool *)
          apply test_type_sound; auto. intros G' HE HV. eapply store_sound; [exact (Htg _ HE)|eapply value_read; [exact (always_here _ _ _ HV)|reflexivity]|apply bool_copy|reflexivity|constructor].
        - (* int *)
          apply test_type_sound; auto. intros G' HE HV. destruct HS as [[H1 H2] _].
          apply (bounded_sound _ _ _ _ _ _ _ _ (TInt b) CInt64); [|discriminate|cbn; tauto|cbn; tauto|reflexivity|exact H1|exact H2|inners..].
          intros k. apply converts_copy. cbn. tauto.
        - (* float *)
          apply test_type_sound; auto. intros G' HE HV. destruct HS as [[H1 H2] _].
          apply (bounded_sound _ _ _ _ _ _ _ _ (TFloat b) CDouble); [|discriminate|cbn; tauto|cbn; tauto|reflexivity|exact H1|exact H2|inners..].
          intros k. apply converts_copy. cbn. tauto.
        - (* string *)
          apply test_type_sound; auto. intros G' HE HV. destruct pt as [p|].
          + apply (matching_sound _ _ _ _ _ _ _ _ _ (TStr (Some p))); [now left|discriminate|inners..|].
            intros G'' _ HK. exists CString, Constant. split; [apply (has_var so G'' _ _ true HK)|apply string_copy].
          + eapply store_sound; [exact (Htg _ HE)|apply as_string; exact (always_here _ _ _ HV)|apply string_copy|discriminate|constructor].
        - (* path *)
          apply test_type_sound; auto. intros G' HE HV. destruct HS as [_ HP].
          assert (Hset : forall G'', extends (inner n) G' G'' -> has G'' (EConstruct (CNamed (cc_path_as cpp)) [cmeth (value_of simple value n) "asString" []]) (cty (TPath pt)) Temporary).
          { intros G'' HE'. apply has_construct with [ByReference CString].
            - right. left. split; [now apply (in_map CNamed)|reflexivity].
            - apply textual_arg; [apply stringy_textual; eexists; apply as_string; exact (HV _ HE')|now left|constructor]. }
          destruct pt as [p|].
          + apply (matching_sound _ _ _ _ _ _ _ _ _ (TPath (Some p))); [now right|discriminate|inners..|].
            intros G'' HE' _. exists (cty (TPath (Some p))), Temporary. split; [now apply Hset|apply converts_move].
          + eapply store_sound; [exact (Htg _ HE)|apply Hset, extends_refl|apply converts_move|discriminate|constructor].
        - (* date *)
          apply test_type_sound; auto. intros G' HE HV. destruct (cpp_ctime cpp) eqn:Ec.
          + apply (with_strptime_sound _ _ _ _ _ _ _ (TDate fm)); [cbn [cpp_ty]; now rewrite Ec|inners..].
          + apply (with_stream_sound _ _ _ _ _ _ _ _ t_local_days); [cbn; tauto| |inners..|intros; constructor].
            intros G'' HE'. assert (HE2 : extends (later n) G G'') by (apply (extends_trans (later n) (inner n) G G'); [apply inner_later|exact HE|exact HE']).
            destruct (Htg _ HE2) as [H|[(_ & _ & H)|(H & _)]]; [cbn [cpp_ty] in H; now rewrite Ec in H|cbn in H; congruence|discriminate].
        - (* time *)
          apply test_type_sound; auto. intros G' HE HV. destruct (cpp_ctime cpp) eqn:Ec.
          + apply (with_strptime_sound _ _ _ _ _ _ _ (TTime fm)); [cbn [cpp_ty]; now rewrite Ec|inners..].
          + apply sound_let_default. set (G1 := _ :: G'). assert (HE1 : extends (inner n) G' G1) by (unfold G1; ext).
            assert (HE2 : extends (later n) G G1) by (apply (extends_trans (later n) (inner n) G G'); [apply inner_later|exact HE|exact HE1]).
            assert (SV : always (inner n) G1 (value_ready (value_of simple value n))) by (now apply (always_sub (inner n) (inner n) G' G1)).
            (* The stream is the only variable declared after [seconds_of_day]. *)
            unfold with_stream.
            eapply sound_let; [eapply has_construct; [right; right; right; right; left; split; reflexivity|]|apply converts_move|].
            { apply textual_arg; [apply stringy_textual; eexists; apply as_string; exact (always_here _ _ _ SV)|now left|constructor]. }
            set (G2 := _ :: G1). assert (HE3 : extends (inner n) G1 G2) by (unfold G2; ext).
            assert (HE4 : extends (later n) G G2) by (apply (extends_trans (later n) (inner n) G G1); [apply inner_later|exact HE2|exact HE3]).
            assert (HI : has G2 (cvar "iss_" n) t_stream Changeable) by (unfold G2; var).
            assert (HD : has G2 (cvar "seconds_of_day_" n) t_seconds Changeable) by (unfold G2, G1; var).
            eapply sound_do; [exact I|eapply has_extract; [exact HI|eapply has_parse; [constructor|exact HD|cbn; tauto]]|].
            eapply sound_if; [eapply read_has; [exact HI|reflexivity]|exact I| | |constructor].
            * rewrite <- (app_nil_r (add_got _ _ _)). unfold add_got.
              assert (HE5 : extends (later n) G ((Own "expected_but_got", (CText, true)) :: G2)) by (apply extends_cons; [grows|exact HE4]).
              apply add_error_sound; [exact (He _ HE5)|exact (Hr _ HE5)| |constructor]. apply stringy_textual. eexists. apply as_string. apply SV.
              apply extends_cons; [grows|exact HE3].
            * eapply store_sound; [exact (Htg _ HE4)|eapply (library_call G2 (s_ "date::make_time")); [reflexivity|]|cbn [cs_result cpp_ty]; rewrite Ec; apply converts_move|discriminate|constructor].
              cbn [cs_params]. eapply applies_arg; [exact HD|apply converts_copy; cbn; tauto|constructor].
        - (* datetime *)
          apply test_type_sound; auto. intros G' HE HV. destruct (cpp_ctime cpp) eqn:Ec.
          + apply (with_strptime_sound _ _ _ _ _ _ _ (TDatetime fm)); [cbn [cpp_ty]; now rewrite Ec|inners..].
          + apply (with_stream_sound _ _ _ _ _ _ _ _ t_local_seconds); [cbn; tauto| |inners..|intros; constructor].
            intros G'' HE'. assert (HE2 : extends (later n) G G'') by (apply (extends_trans (later n) (inner n) G G'); [apply inner_later|exact HE|exact HE']).
            destruct (Htg _ HE2) as [H|[(_ & _ & H)|(H & _)]]; [cbn [cpp_ty] in H; now rewrite Ec in H|cbn in H; congruence|discriminate].
        - (* time zone *)
          apply test_type_sound; auto. intros G' HE HV. destruct (cpp_ctime cpp) eqn:Ec.
          + eapply store_sound; [exact (Htg _ HE)|apply as_string; exact (always_here _ _ _ HV)|cbn [cpp_ty]; rewrite Ec; apply string_copy|discriminate|constructor].
          + eapply sound_let; [apply as_string; exact (always_here _ _ _ HV)|apply string_copy|].
            set (G1 := _ :: G'). assert (HE2 : extends (later n) G G1) by (unfold G1; ext).
            assert (HK : known G1 (cnum "cast_" n) CString true) by (unfold G1; kn).
            apply sound_try; [| |constructor].
            * eapply store_sound; [exact (Htg _ HE2)|eapply (library_call G1 (s_ "date::locate_zone")); [reflexivity|]|cbn [cs_result cpp_ty]; rewrite Ec; apply converts_move|discriminate|constructor].
              cbn [cs_params]. eapply applies_arg; [apply (has_var so G1 _ _ true HK)|now left|constructor].
            * rewrite <- (app_nil_r (add_got _ _ _)). unfold add_got.
              assert (HE5 : extends (later n) G ((Own "expected_but_got", (CText, true)) :: (Own "e", (t_runtime_error, true)) :: G1)) by (apply extends_cons; [grows|]; apply extends_cons; [grows|]; exact HE2).
              apply add_error_sound; [exact (He _ HE5)|exact (Hr _ HE5)| |constructor]. apply stringy_textual. exists Constant.
              apply (has_var so _ _ _ true). apply known_before; [differ|]. apply known_before; [differ|exact HK].
        - (* duration *)
          apply test_type_sound; auto. intros G' HE HV. destruct HS as [_ HD].
          eapply sound_let; [apply as_string; exact (always_here _ _ _ HV)|apply string_copy|]. apply sound_let_default.
          eapply sound_let; [apply (call_has _ _ _ _ HD)|apply converts_move|].
          { cbn [cs_params]. eapply applies_arg; [cvar|now left|]. eapply applies_arg; [apply has_address; var|apply converts_move|constructor]. }
          set (G1 := _ :: _ :: _ :: G'). assert (HE2 : extends (later n) G G1) by (unfold G1; ext).
          assert (HK : known G1 (cnum "error_" n) CString false) by (unfold G1; kn).
          apply if_bool; [| | |constructor].
          + apply not_has. exists Temporary. eapply read_has; [apply (has_var so G1 _ _ false HK)|reflexivity].
          + rewrite <- (app_nil_r (add_error _ _ _ _)).
            assert (HE5 : extends (later n) G ((Own "invalid_duration", (CText, true)) :: G1)) by (apply extends_cons; [grows|exact HE2]).
            apply add_error_sound; [exact (He _ HE5)|exact (Hr _ HE5)| |constructor]. apply stringy_textual. exists Changeable.
            apply (has_var so _ _ _ false). apply known_before; [differ|exact HK].
          + eapply store_sound; [exact (Htg _ HE2)| |apply converts_copy; cbn; tauto|discriminate|constructor]. unfold G1. var.
        - (* array *)
          destruct HS as [[H1 H2] HS].
          match goal with |- context[cparse cpp g instances t ?s ?v ?tg' ?r ?m] => specialize (IH s v tg' r m true); destruct (cparse cpp g instances t s v tg' r m) as [item n'] eqn:Ei end.
          cbn [fst] in *. apply test_type_sound; auto. intros G' HE HV.
          assert (SV : always (inner n) G' (ref_ready ref)) by inners. assert (SE : always (inner n) G' errors_at) by inners.
          apply (test_size_sound _ _ _ _ _ n); [exact H1|exact HV|exact SV|exact SE|]. apply (test_size_sound _ _ _ _ _ n); [exact H2|exact HV|exact SV|exact SE|].
          apply sound_reference; [exact (target_compound (TArray t mn mx) _ _ eq_refl (Htg _ HE))|].
          set (G1 := _ :: G'). assert (HE1 : extends (inner n) G' G1) by (unfold G1; ext).
          assert (HT : has G1 (cvar "target_" n) (CVector (cty t)) Changeable) by (unfold G1; var).
          eapply sound_do; [exact I| |].
          { eapply (has_method so G1 _ _ Changeable (s_ "resize") (changes [ByValue CUnsigned])); [exact HT|reflexivity|discriminate|].
            cbn [changes mb_params]. eapply applies_arg; [eapply value_read; [exact (HV _ HE1)|reflexivity]|apply converts_move|constructor]. }
          eapply sound_let; [apply number_arg_zero|apply converts_arithmetic; cbn; tauto|]. set (G2 := _ :: G1).
          assert (HE2 : extends (inner n) G' G2) by (unfold G2, G1; ext).
          destruct (HV _ HE2) as (k & HV2). eapply sound_each_json; [exact HV2| |constructor]. set (G3 := _ :: G2).
          assert (HE3 : extends (later n) G G3) by (unfold G3, G2, G1; ext).
          assert (ON : forall x, later (S n) x -> later n x) by (intros x; apply later_le; lia).
          assert (K1 : always (later (S n)) G3 (fun H => known H (cnum "i_" n) CUnsigned false)) by (apply known_always; [apply later_below; [stem|lia]|unfold G3, G2; kn]).
          assert (K2 : always (later (S n)) G3 (fun H => known H (cnum "item_" n) t_value true)) by (apply known_always; [apply later_below; [stem|lia]|unfold G3; kn]).
          assert (K3 : always (later (S n)) G3 (fun H => known H (cnum "target_" n) (CVector (cty t)) false)) by (apply known_always; [apply later_below; [stem|lia]|unfold G3, G2, G1; kn]).
          assert (KE : always (later (S n)) G3 errors_at) by (apply (always_sub (later n) _ G); [exact ON|exact HE3|exact He]).
          apply IH.
          + intros H HH. exists Constant. apply (has_var so H _ _ true). now apply K2.
          + intros H HH. assert (HI : has H (cvar "i_" n) CUnsigned Changeable) by (apply (has_var so H _ _ false); now apply K1).
            assert (HT' : has H (cvar "target_" n) (CVector (cty t)) Changeable) by (apply (has_var so H _ _ false); now apply K3).
            assert (HA : applies H [cvar "i_" n] [ByValue CUnsigned]) by (eapply applies_arg; [exact HI|apply converts_copy; cbn; tauto|constructor]).
            assert (HB : t = TBool \/ cty t <> CBool).
            { destruct t; cbn [cpp_ty]; try (now left); right; try discriminate; destruct (cpp_ctime cpp); discriminate. }
            destruct HB as [-> |Hne].
            * right. right. split; [reflexivity|]. exists Temporary.
              apply (has_method so H _ _ Changeable (s_ "at") (Member true [ByValue CUnsigned] CBit Temporary) _ HT'); [reflexivity|reflexivity|exact HA].
            * left. apply (has_method so H _ _ Changeable (s_ "at") (Member true [ByValue CUnsigned] (cty t) Changeable) _ HT'); [|reflexivity|exact HA].
              cbn [members]. destruct (cty t); try reflexivity. congruence.
          + intros H HH. apply ref_app; [apply Hr; now apply (extends_trans (later n) (later (S n)) G G3)|]. constructor; [apply text_textual|].
            constructor; [|constructor]. apply stringy_textual. exists Temporary. eapply has_to_string; [apply (has_var so H _ _ false); now apply K1|cbn; tauto].
          + exact KE.
          + apply (supported_impl (registry_ready (later n) G)); [|exact HS]. intros c Hc. now apply (always_sub (later n) _ G).
          + intros H HH. eapply sound_increment; [apply (has_var so H _ _ false); now apply K1|cbn; tauto|].
            apply full_sound; [now apply KE|intros l' Hl'; now apply sound_break|constructor].
        - (* map *)
          destruct HS as [_ HS].
          match goal with |- context[cparse cpp g instances t ?s ?v ?tg' ?r ?m] => specialize (IH s v tg' r m true); destruct (cparse cpp g instances t s v tg' r m) as [item n'] eqn:Ei end.
          cbn [fst] in *. apply test_type_sound; auto. intros G' HE HV.
          apply sound_reference; [exact (target_compound (TMap t) _ _ eq_refl (Htg _ HE))|].
          set (G1 := _ :: G'). assert (HE1 : extends (inner n) G' G1) by (unfold G1; ext).
          assert (HT : has G1 (cvar "target_" n) (CMap (cty t)) Changeable) by (unfold G1; var).
          assert (HIT : forall k, converts t_iterator k t_iterator) by (intros k; apply converts_copy; cbn; tauto).
          eapply sound_for; [eapply value_read; [exact (HV _ HE1)|reflexivity]|apply HIT|cbn; tauto| | |constructor].
          { exists Temporary. eapply has_equal; [var|eapply value_read; [apply HV; unfold G1; ext|reflexivity]|cbn; tauto]. }
          set (G3 := _ :: G1).
          assert (HE3 : extends (later n) G G3) by (unfold G3, G1; ext).
          assert (ON : forall x, later (S n) x -> later n x) by (intros x; apply later_le; lia).
          assert (K1 : always (later (S n)) G3 (fun H => has H (cvar "it_" n) t_iterator Changeable)).
          { apply (always_impl _ _ (fun H => known H (cnum "it_" n) t_iterator false)); [intros H HK; apply (has_var so H _ _ false HK)|].
            apply known_always; [apply later_below; [stem|lia]|unfold G3; kn]. }
          assert (K3 : always (later (S n)) G3 (fun H => has H (cvar "target_" n) (CMap (cty t)) Changeable)).
          { apply (always_impl _ _ (fun H => known H (cnum "target_" n) (CMap (cty t)) false)); [intros H HK; apply (has_var so H _ _ false HK)|].
            apply known_always; [apply later_below; [stem|lia]|unfold G3, G1; kn]. }
          assert (KE : always (later (S n)) G3 errors_at) by (apply (always_sub (later n) _ G); [exact ON|exact HE3|exact He]).
          assert (KN : always (later (S n)) G3 (fun H => has H (cmeth (cvar "it_" n) "name" []) CString Temporary)).
          { intros H HH. eapply read_has; [now apply K1|reflexivity]. }
          apply IH.
          + intros H HH. exists Constant. eapply has_deref_iterator. now apply K1.
          + intros H HH. left. eapply has_entry; [now apply K3|now apply KN|apply string_copy].
          + intros H HH. apply ref_app; [apply Hr; now apply (extends_trans (later n) (later (S n)) G G3)|]. constructor; [apply text_textual|].
            constructor; [|constructor]. apply stringy_textual. exists Temporary. now apply KN.
          + exact KE.
          + apply (supported_impl (registry_ready (later n) G)); [|exact HS]. intros c Hc. now apply (always_sub (later n) _ G).
          + intros H HH. apply full_sound; [now apply KE|intros l' Hl'; now apply sound_break|constructor].
        - (* class *)
          destruct HS as [_ (d & Ed & Hd)]. rewrite Ed.
          assert (En : c_name d = c) by (apply find_some in Ed as [_ Ed]; now apply str_eqb_eq in Ed).
          apply test_type_sound; auto. intros G' HE HV. eapply sound_constant_reference; [apply as_string; exact (always_here _ _ _ HV)|].
          set (G1 := _ :: G'). assert (HE2 : extends (later n) G G1) by (unfold G1; ext).
          assert (HK : has G1 (cvar "cast_" n) CString Constant) by (unfold G1; cvar).
          assert (HA : applies G1 [cvar "cast_" n] [ByReference CString]) by (eapply applies_arg; [exact HK|now left|constructor]).
          destruct (Hd _ HE2) as (k & HR).
          apply if_bool; [| | |constructor].
          + apply (has_equal_number so G1 _ _ _ CUnsigned Temporary CInt Temporary); [|apply number_arg_zero|cbn; tauto|cbn; tauto].
            apply (has_method so G1 _ _ k (s_ "count") (reads [ByReference CString] CUnsigned) _ HR); [reflexivity|reflexivity|exact HA].
          + rewrite <- (app_nil_r (add_error _ _ _ _)).
            assert (HE5 : extends (later n) G ((Own "reference_not_found", (CText, true)) :: G1)) by (apply extends_cons; [grows|exact HE2]).
            apply add_error_sound; [exact (He _ HE5)|exact (Hr _ HE5)| |constructor]. apply stringy_textual. exists Constant. unfold G1. cvar.
          + eapply store_sound; [exact (Htg _ HE2)| |apply converts_move|discriminate|constructor]. cbn [cpp_ty]. rewrite <- En.
            apply (read_has G1 _ (CUnique (CNamed (ucamel (c_name d)))) (lvalue (match k with Constant => true | _ => false end))); [|reflexivity].
            apply (has_method so G1 _ _ k (s_ "at") (Member true [ByReference CString] _ _) _ HR); [reflexivity|reflexivity|exact HA].
        - (* embed *)
          destruct HS as [_ [HF HR]]. rewrite <- app_assoc. apply head_sound; [exact Hv|]. intros G' HE HV. cbn [app].
          eapply sound_do; [exact I| |now apply Hl].
          assert (HTg : has G' (EAddress tg) (CPointer false (CNamed (ucamel e))) Temporary) by (apply has_address; exact (target_compound (TEmbed e) _ _ eq_refl (Htg _ HE))).
          apply HF; [now rewrite map_length| |eexists; exact HTg].
          unfold parser_params. rewrite !map_app. cbn [map snd app]. destruct (always_here _ _ _ HV) as (k & HV'). eapply applies_arg; [exact HV'|now left|].
          apply applies_app; [apply applies_registries; intros c Hc; now apply HR|].
          apply textual_arg; [apply stringy_textual, joined_has; exact (Hr _ HE)|now right|].
          eapply applies_arg; [exact HTg|apply converts_move|].
          eapply applies_arg; [apply (has_var so G' _ _ false); exact (He _ HE)|apply converts_copy; exact I|constructor].
      Qed.

      (** ** Properties *)
      Definition own_at (role : string) (t : ctype) (c : bool) (G : cenv) : Prop := known G (Own role) t c.
      (** The member of a property, which must be called in lower case *)
      Definition member_ready (S : str) (p : prop) : Prop :=
        member_type so S (lower (p_name p)) = Some (snd (cmember cpp p)) /\ (p_optional p = true -> undated (p_type p)).
      Lemma cparse_properties_sound S ps : forall n loop G l,
        own_at "value" t_value true G -> own_at "ref" CString false G -> own_at "target" (CPointer false (CNamed S)) false G -> errors_at G -> result = CVoid ->
        (forall p, In p ps -> member_ready S p /\ supported (registry_ready (later n) G) (p_type p)) ->
        sound loop G l -> sound loop G (cparse_properties cpp g instances ps n ++ l).
      Proof.
        induction ps as [|p ps IH]; intros n loop G l Hv Hr Ht He Hres Hps Hl; cbn [cparse_properties]; [exact Hl|].
        destruct (Hps p ltac:(now left)) as [[HM Hund] HSup]. unfold cmember in HM. cbn [snd] in HM. unfold cparse_property.
        pose proof (cparse_next (p_type p) false (EIndex (cown "value") (EText (p_json p)))
          (if p_optional p && is_compound (p_type p) then EDeref (target_member p) else target_member p) [cown "ref"; EText (s_ "/" ++ p_json p)] n) as Hn.
        pose proof (cparse_sound (p_type p) false (EIndex (cown "value") (EText (p_json p)))
          (if p_optional p && is_compound (p_type p) then EDeref (target_member p) else target_member p) [cown "ref"; EText (s_ "/" ++ p_json p)] n loop G []) as HS.
        destruct (cparse _ _ _ _ _ _ _ _ n) as [parsing n'] eqn:Ep. cbn [fst snd] in *. rewrite app_nil_r in HS.
        assert (HO : forall r, existsb (fun x => match x with Own r' => String.eqb r r' | _ => false end) fixed_things = false -> forall t c, own_at r t c G -> always (later n) G (own_at r t c)).
        { intros r Hr' t c H. apply known_always; [now apply later_own|exact H]. }
        assert (HF : forall G', own_at "target" (CPointer false (CNamed S)) false G' ->
          has G' (target_member p) (if p_optional p then COptional (cty (p_type p)) else cty (p_type p)) Changeable).
        { intros G' H. apply has_member with S; [|exact HM]. apply (has_deref so G' _ false _ Changeable). apply (has_var so G' _ _ false H). }
        assert (HS' : sound loop G parsing).
        { apply HS; clear HS.
          - intros G' HE. exists Constant. eapply has_json_entry; [apply (has_var so G' _ _ true); exact (HO "value"%string eq_refl _ _ Hv G' HE)|constructor|cbn; tauto].
          - intros G' HE. pose proof (HF _ (HO "target"%string eq_refl _ _ Ht G' HE)) as HT. destruct (p_optional p); cbn [andb].
            + destruct (is_compound (p_type p)) eqn:Ec; [left; now apply has_deref_optional|right; left; auto].
            + now left.
          - intros G' HE. split; [|constructor; [apply text_textual|constructor]]. exists Changeable. apply (has_var so G' _ _ false). exact (HO "ref"%string eq_refl _ _ Hr G' HE).
          - exact (HO "errors"%string eq_refl _ _ He).
          - exact HSup.
          - intros; constructor. }
        assert (Hmem : has G (cmeth (cown "value") "isMember" [EText (p_json p)]) CBool Temporary).
        { apply (has_method so G _ t_value Constant (s_ "isMember") (reads [ByReference CString] CBool) _ (has_var so G _ _ true Hv)); [reflexivity|reflexivity|].
          apply textual_arg; [apply text_textual|now left|constructor]. }
        assert (Hrest : sound loop G (stop_if_full (KReturn None) :: cparse_properties cpp g instances ps n' ++ l)).
        { apply full_sound; [exact He|intros l' Hl'; now apply sound_return_none|]. apply IH; auto. intros q Hq. destruct (Hps q ltac:(now right)) as [H1 H2]. split; [exact H1|].
          apply (supported_impl (registry_ready (later n) G)); [|exact H2]. intros c Hc. apply (always_sub (later n) _ G); [intros x; apply later_le; lia|apply extends_refl|exact Hc]. }
        destruct (p_optional p).
        - cbn [app]. eapply sound_if; [exact Hmem|exact I| |constructor|exact Hrest]. destruct (is_compound (p_type p)); [|exact HS']. cbn [app].
          eapply sound_do; [exact I| |exact HS'].
          apply (has_method so G _ _ Changeable (s_ "emplace") (Member false [] (cty (p_type p)) Changeable) _ (HF _ Ht)); [reflexivity|discriminate|constructor].
        - cbn [app]. eapply sound_if; [apply not_has; eexists; exact Hmem|exact I| |exact HS'|exact Hrest].
          apply add_sound; [exact He| |apply text_textual|constructor]. apply stringy_textual. exists Changeable. apply (has_var so G _ _ false Hr).
      Qed.
    End Parse.

    (** * Serialization *)
    Definition serializer_callable (name : str) : Prop :=
      forall G e k, has G e (CNamed (ucamel name)) k -> has G (ECall (cpp_serializer_name name) [e]) t_value Temporary.
    Fixpoint supported_to (t : ty) : Prop :=
      match t with
      | TPath _ => In (cc_path_as cpp) paths
      | TDate _ | TTime _ | TDatetime _ => cpp_ctime cpp = true -> unique (s_ "tm_to_string") (CSig [ByReference t_tm; ByValue CText] CString)
      | TDuration => unique (s_ "duration_to_string") (CSig [ByReference t_nanoseconds] CString)
      | TArray values _ _ | TMap values => supported_to values
      | TClass n => member_type so (ucamel n) (s_ "id") = Some CString
      | TEmbed n => serializer_callable n
      | _ => True
      end.

    Lemma cserialize_next t : forall v tg n, n <= snd (cserialize cpp t v tg n).
    Proof.
      induction t as [|b|b|pt|pt|fm|fm|fm| | |t IH mn mx|t IH|c|e]; intros v tg n; cbn [cserialize snd]; try lia.
      all: match goal with |- context[cserialize cpp ?u ?v ?tg ?m] => specialize (IH v tg m); destruct (cserialize cpp u v tg m) as [item n'] end.
      all: cbn [snd] in *; lia.
    Qed.
    Lemma json_store loop G tg e u k l : has G tg t_value Changeable -> has G e u k -> converts u k t_value -> sound loop G l -> sound loop G (KAssign tg e :: l).
    Proof. intros H1 H2 H3 Hl. eapply sound_assign; [exact H1|exact H2|exact H3|exact Hl]. Qed.
    Lemma string_json k : converts CString k t_value.
    Proof. apply converts_json. cbn. tauto. Qed.
    Lemma text_json k : converts CText k t_value.
    Proof. apply converts_json. cbn. tauto. Qed.

    Lemma path_string G e k : In (cc_path_as cpp) paths -> has G e (CNamed (cc_path_as cpp)) k -> has G (cmeth e "string" []) CString Temporary.
    Proof. intros HP He. eapply read_has; [exact He|]. intros c. unfold paths in HP. cbn [In] in HP. destruct HP as [<-|[<-|[]]]; reflexivity. Qed.

    Lemma cserialize_sound t : forall value tg n loop G l,
      always (later n) G (fun G' => exists k, has G' value (cty t) k) -> always (later n) G (fun G' => has G' tg t_value Changeable) -> supported_to t ->
      (forall G', extends (later n) G G' -> sound loop G' l) ->
      sound loop G (fst (cserialize cpp t value tg n) ++ l).
    Proof.
      assert (Hplain : forall t value tg n loop G l e, 
        always (later n) G (fun G' => exists k, has G' value (cty t) k) -> always (later n) G (fun G' => has G' tg t_value Changeable) ->
        (forall k, has G value (cty t) k -> exists u j, has G e u j /\ converts u j t_value) ->
        (forall G', extends (later n) G G' -> sound loop G' l) -> sound loop G ([KAssign tg e] ++ l)).
      { intros t0 value tg n loop G l e Hv Ht He Hl. destruct (always_here _ _ _ Hv) as (k & HV). destruct (He k HV) as (u & j & H1 & H2).
        cbn [app]. eapply json_store; [exact (always_here _ _ _ Ht)|exact H1|exact H2|apply Hl, extends_refl]. }
      assert (Htm : forall G value k fm, cpp_ctime cpp = true -> unique (s_ "tm_to_string") (CSig [ByReference t_tm; ByValue CText] CString) -> has G value t_tm k ->
        has G (ccall "tm_to_string" [value; EText fm]) CString Temporary).
      { intros G value k fm Ec HU HV. apply (call_has G _ _ _ HU). cbn [cs_params]. eapply applies_arg; [exact HV|now left|]. eapply applies_arg; [constructor|apply converts_move|constructor]. }
      induction t as [|b|b|pt|pt|fm|fm|fm| | |t IH mn mx|t IH|c|e]; intros value tg n loop G l Hv Htg HS Hl; cbn [cserialize fst].
      - eapply (Hplain TBool); eauto. intros k HV. exists CBool, k. split; [exact HV|apply converts_json; cbn; tauto].
      - eapply (Hplain (TInt b)); eauto. intros k HV. exists CInt64, k. split; [exact HV|apply converts_json; cbn; tauto].
      - eapply (Hplain (TFloat b)); eauto. intros k HV. exists CDouble, k. split; [exact HV|apply converts_json; cbn; tauto].
      - eapply (Hplain (TStr pt)); eauto. intros k HV. exists CString, k. split; [exact HV|apply string_json].
      - eapply (Hplain (TPath pt)); eauto. intros k HV. exists CString, Temporary. split; [now apply (path_string G value k)|apply string_json].
      - eapply (Hplain (TDate fm)); eauto. intros k HV. destruct fm as [|a fm]; [exists CText, Temporary; split; [constructor|apply text_json]|].
        exists CString, Temporary. split; [|apply string_json]. cbn [cpp_ty supported_to] in *. destruct (cpp_ctime cpp) eqn:Ec; [now apply (Htm G value k); auto|].
        eapply has_format; [constructor|exact HV|cbn; tauto].
      - eapply (Hplain (TTime fm)); eauto. intros k HV. destruct fm as [|a fm]; [exists CText, Temporary; split; [constructor|apply text_json]|].
        exists CString, Temporary. split; [|apply string_json]. cbn [cpp_ty supported_to] in *. destruct (cpp_ctime cpp) eqn:Ec; [now apply (Htm G value k); auto|].
        eapply has_format; [constructor|eapply read_has; [exact HV|reflexivity]|cbn; tauto].
      - eapply (Hplain (TDatetime fm)); eauto. intros k HV. destruct fm as [|a fm]; [exists CText, Temporary; split; [constructor|apply text_json]|].
        exists CString, Temporary. split; [|apply string_json]. cbn [cpp_ty supported_to] in *. destruct (cpp_ctime cpp) eqn:Ec; [now apply (Htm G value k); auto|].
        eapply has_format; [constructor|exact HV|cbn; tauto].
      - eapply (Hplain TTimeZone); eauto. intros k HV. cbn [cpp_ty] in HV. destruct (cpp_ctime cpp).
        + exists CString, k. split; [exact HV|apply string_json].
        + exists CString, Temporary. split; [|apply string_json]. eapply read_has; [eapply has_deref; exact HV|reflexivity].
      - eapply (Hplain TDuration); eauto. intros k HV. exists CString, Temporary. split; [|apply string_json]. cbn [supported_to] in HS.
        apply (call_has G _ _ _ HS). cbn [cs_params]. eapply applies_arg; [exact HV|now left|constructor].
      - (* array *)
        match goal with |- context[cserialize cpp t ?v ?tg' ?m] => specialize (IH v tg' m true); destruct (cserialize cpp t v tg' m) as [item n'] eqn:Ei end.
        cbn [fst app] in *. eapply sound_let; [now apply has_constant|apply converts_json; cbn; tauto|].
        set (G1 := _ :: G). assert (HE1 : extends (later n) G G1) by (unfold G1; ext).
        destruct (Hv _ HE1) as (k & HV1). eapply sound_auto_reference; [exact HV1|]. set (G2 := _ :: G1).
        assert (HE2 : extends (later n) G G2) by (unfold G2, G1; ext).
        eapply sound_for; [apply number_arg_zero|apply converts_move|cbn; tauto| | |].
        + exists Temporary. eapply has_order; [var|eapply read_has; [unfold G2; cvar|reflexivity]|cbn; tauto|cbn; tauto].
        + set (G3 := _ :: G2).
          assert (K1 : always (later (S n)) G3 (fun H => known H (cnum "i_" n) CInt false)) by (apply known_always; [apply later_below; [stem|lia]|unfold G3; kn]).
          assert (K2 : always (later (S n)) G3 (fun H => known H (cnum "vector_" n) (CVector (cty t)) true)) by (apply known_always; [apply later_below; [stem|lia]|unfold G3, G2; kn]).
          assert (K3 : always (later (S n)) G3 (fun H => known H (cnum "target_" n) t_value false)) by (apply known_always; [apply later_below; [stem|lia]|unfold G3, G2, G1; kn]).
          rewrite <- (app_nil_r item). apply IH; [| |exact HS|intros; constructor].
          * intros H HH. assert (HB : cty t = CBool \/ cty t <> CBool).
            { destruct t; cbn [cpp_ty]; try (now left); right; try discriminate; destruct (cpp_ctime cpp); discriminate. }
            pose proof (has_var so H _ _ true (K2 _ HH)) as HVv. pose proof (has_var so H _ _ false (K1 _ HH)) as HI.
            destruct HB as [E|Hne].
            -- rewrite E in *. exists Temporary. eapply has_bit; [exact HVv|discriminate|exact HI|cbn; tauto].
            -- exists Constant. eapply has_element; [exact HVv|exact Hne|exact HI|cbn; tauto].
          * intros H HH. eapply has_json_element; [apply (has_var so H _ _ false (K3 _ HH))|apply (has_var so H _ _ false (K1 _ HH))|cbn; tauto].
        + eapply json_store; [exact (Htg _ HE2)|apply has_move; unfold G2, G1; var|apply converts_move|now apply Hl].
      - (* map *)
        match goal with |- context[cserialize cpp t ?v ?tg' ?m] => specialize (IH v tg' m true); destruct (cserialize cpp t v tg' m) as [item n'] eqn:Ei end.
        cbn [fst app] in *. eapply sound_let; [now apply has_constant|apply converts_json; cbn; tauto|].
        set (G1 := _ :: G). assert (HE1 : extends (later n) G G1) by (unfold G1; ext).
        destruct (Hv _ HE1) as (k & HV1). eapply sound_auto_reference; [exact HV1|]. set (G2 := _ :: G1).
        assert (HE2 : extends (later n) G G2) by (unfold G2, G1; ext).
        eapply sound_each_entry; [unfold G2; cvar| |].
        + set (G3 := _ :: G2).
          assert (K1 : always (later (S n)) G3 (fun H => known H (cnum "kv_" n) (CPair (cty t)) true)) by (apply known_always; [apply later_below; [stem|lia]|unfold G3; kn]).
          assert (K3 : always (later (S n)) G3 (fun H => known H (cnum "target_" n) t_value false)) by (apply known_always; [apply later_below; [stem|lia]|unfold G3, G2, G1; kn]).
          rewrite <- (app_nil_r item). apply IH; [| |exact HS|intros; constructor].
          * intros H HH. exists Constant. eapply has_second. apply (has_var so H _ _ true (K1 _ HH)).
          * intros H HH. eapply has_json_entry; [apply (has_var so H _ _ false (K3 _ HH))|eapply has_first; apply (has_var so H _ _ true (K1 _ HH))|cbn; tauto].
        + eapply json_store; [exact (Htg _ HE2)|apply has_move; unfold G2, G1; var|apply converts_move|now apply Hl].
      - eapply (Hplain (TClass c)); eauto. intros k HV. exists CString, Changeable. split; [|apply string_json]. cbn [cpp_ty supported_to] in *.
        eapply has_member; [apply (has_deref so G _ false _ k HV)|exact HS].
      - eapply (Hplain (TEmbed e)); eauto. intros k HV. exists t_value, Temporary. split; [now apply (HS G value k)|apply converts_move].
    Qed.

    (** ** Properties *)
    Definition member_read (S : str) (p : prop) : Prop := member_type so S (p_name p) = Some (snd (cmember cpp p)).
    Lemma cserialize_properties_sound S ps : forall n loop G l,
      own_at "structure" (CNamed S) true G -> own_at "result" t_value false G ->
      (forall p, In p ps -> member_read S p /\ supported_to (p_type p)) ->
      (forall G', extends (later n) G G' -> sound loop G' l) -> sound loop G (cserialize_properties cpp ps n ++ l).
    Proof.
      induction ps as [|p ps IH]; intros n loop G l Hs Hr Hps Hl; cbn [cserialize_properties]; [apply Hl, extends_refl|].
      destruct (Hps p ltac:(now left)) as [HM HSup]. unfold member_read, cmember in HM. cbn [snd] in HM. unfold cserialize_property.
      set (value := EMember (cown "structure") (p_name p)) in *.
      pose proof (cserialize_next (p_type p) (if p_optional p then EDeref value else value) (EIndex (cown "result") (EText (p_json p))) n) as Hn.
      pose proof (cserialize_sound (p_type p) (if p_optional p then EDeref value else value) (EIndex (cown "result") (EText (p_json p))) n loop G) as HS.
      destruct (cserialize _ _ _ _ n) as [serialization n'] eqn:Ep. cbn [fst snd] in *.
      assert (HO : forall r, existsb (fun x => match x with Own r' => String.eqb r r' | _ => false end) fixed_things = false -> forall t c, own_at r t c G -> always (later n) G (own_at r t c)).
      { intros r Hr' t c H. apply known_always; [now apply later_own|exact H]. }
      assert (HF : forall G', own_at "structure" (CNamed S) true G' -> has G' value (if p_optional p then COptional (cty (p_type p)) else cty (p_type p)) Constant).
      { intros G' H. apply has_member with S; [|exact HM]. apply (has_var so G' _ _ true H). }
      assert (HS' : forall l', (forall G', extends (later n) G G' -> sound loop G' l') -> sound loop G (serialization ++ l')).
      { intros l' Hl'. apply HS; clear HS; [| |exact HSup|exact Hl'].
        - intros G' HE. pose proof (HF _ (HO "structure"%string eq_refl _ _ Hs G' HE)) as HT. exists Constant.
          destruct (p_optional p); [now apply has_deref_optional|exact HT].
        - intros G' HE. eapply has_json_entry; [apply (has_var so G' _ _ false); exact (HO "result"%string eq_refl _ _ Hr G' HE)|constructor|cbn; tauto]. }
      assert (Hrest : forall G', extends (later n) G G' -> sound loop G' (cserialize_properties cpp ps n' ++ l)).
      { intros G' HE. apply IH; [exact (HO "structure"%string eq_refl _ _ Hs G' HE)|exact (HO "result"%string eq_refl _ _ Hr G' HE)|intros q Hq; apply Hps; now right|].
        intros G'' HE'. apply Hl. apply (extends_trans (later n) (later n') G G'); [intros x; now apply later_le|exact HE|exact HE']. }
      destruct (p_optional p).
      - cbn [app]. eapply sound_if; [apply HF; exact Hs|exact I| |constructor|apply Hrest, extends_refl].
        rewrite <- (app_nil_r serialization). apply HS'. intros; constructor.
      - rewrite <- app_assoc. now apply HS'.
    Qed.
  End Result.
End Typing.
