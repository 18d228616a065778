(** Proofs about the types in the generated Go functions. *)
From Coq Require Import String List Arith NArith ZArith Bool Lia.
From Verif Require Import Base M_Naming M_Schema M_Dec M_TypeGraph M_Walk M_GoImports M_Text M_Strftime M_GoGen M_AutoID S_Scope M_Scope M_GoScope
  P_Common P_AutoID P_Scope P_BlockScope P_GoScope S_GoTyping M_GoTyping.
Import ListNotations.
Open Scope list_scope.
Local Open Scope nat_scope.

(** * Environments which grow by numbered variables *)

Definition extends (n : nat) (G G' : env) : Prop :=
  exists D, G' = D ++ G /\ Forall (fun p => exists x, fst p = Auto x /\ gnum n x) D.
Definition always (n : nat) (G : env) (P : env -> Prop) : Prop := forall G', extends n G G' -> P G'.

Lemma extends_refl n G : extends n G G.
Proof. exists []. split; [reflexivity|constructor]. Qed.
Lemma extends_trans n m G G' G'' : n <= m -> extends n G G' -> extends m G' G'' -> extends n G G''.
Proof.
  intros Hn (D & -> & HD) (D' & -> & HD'). exists (D' ++ D). split; [now rewrite app_assoc|]. apply Forall_app. split; [|exact HD].
  eapply Forall_impl; [|exact HD']. intros p (x & E & Hx). exists x. split; [exact E|]. now apply (num_le _ n m).
Qed.
Lemma extends_cons n G G' s k t : In (s_ s) go_stems -> n <= k -> extends n G G' -> extends n G ((num_var s k, t) :: G').
Proof.
  intros Hs Hk (D & -> & HD). exists ((num_var s k, t) :: D). split; [reflexivity|]. constructor; [|exact HD].
  exists (auto s k). split; [reflexivity|]. now apply gnum_auto.
Qed.
Lemma always_here n G P : always n G P -> P G.
Proof. intros H. apply H, extends_refl. Qed.
Lemma always_sub n m G G' P : n <= m -> extends n G G' -> always n G P -> always m G' P.
Proof. intros Hn HE H G'' HE'. apply H. now apply (extends_trans n m G G'). Qed.
Lemma always_impl n G (P Q : env -> Prop) : (forall G', P G' -> Q G') -> always n G P -> always n G Q.
Proof. intros H HP G' HE. apply H. now apply HP. Qed.

(** What is declared stays declared, if it is not numbered from [n] on. *)
Definition stable (n : nat) (x : thing) : Prop := forall y, x = Auto y -> ~ gnum n y.
Lemma declared_always n G x t : stable n x -> declared G x t -> always n G (fun G' => declared G' x t).
Proof.
  intros Hx H G' (D & -> & HD). induction HD as [|[y u] D (z & E & Hz) _ IH]; [exact H|]. cbn [fst] in E. subst y. cbn [app].
  apply declared_before; [|exact IH]. intros ->. now apply (Hx z).
Qed.
Lemma stable_own n r : stable n (Own r). Proof. intros y E. discriminate. Qed.
Lemma stable_for n r c : stable n (For r c). Proof. intros y E. discriminate. Qed.
Lemma stable_num n s k : In (s_ s) go_stems -> k < n -> stable n (num_var s k).
Proof. intros Hs Hk y [= <-]. now apply gnum_below. Qed.
Lemma num_var_neq s k s' k' : In (s_ s) go_stems -> In (s_ s') go_stems -> s_ s <> s_ s' \/ k <> k' -> num_var s k <> num_var s' k'.
Proof. intros H1 H2 Hn [= E]. apply gauto_eq in E as [E1 E2]; [|assumption|assumption]. destruct Hn; congruence. Qed.

Ltac differ := first
  [ discriminate
  | apply num_var_neq; [stem|stem|first [left; discriminate | right; lia]]
  | solve [let E := fresh in intros E; injection E as E; congruence] ].
Ltac decl := repeat first [apply declared_here | apply declared_before; [differ|] | assumption].
Ltac ext := repeat first [apply extends_refl | apply extends_cons; [stem|lia|] | assumption].
(** The conclusion holds by a hypothesis [always]. *)
Ltac by_always := match goal with
  | H : always ?n ?G ?P |- _ => first [exact (H _ ltac:(ext)) | refine (H _ _); [ext]] end.

(** ** Formats *)
Lemma plain_formats x : plain x -> formats x [].
Proof.
  induction x as [|c x IH]; intros H; [constructor|]. apply formats_char; [intros ->; apply H; now left|].
  apply IH. intros Hin. apply H. now right.
Qed.
Lemma formats_app a va b vb : formats a va -> formats b vb -> formats (a ++ b) (va ++ vb).
Proof.
  intros Ha Hb. induction Ha.
  - exact Hb.
  - cbn [app]. now apply formats_char.
  - rewrite <- app_assoc. now apply formats_percent.
  - rewrite <- !app_assoc. cbn [app]. now apply (formats_verb flags c (x ++ b) (verbs ++ vb)).
Qed.
(** The verbs of a format with at most one flag *)
Fixpoint verbs_of (x : str) : option (list N) :=
  match x with
  | [] => Some []
  | c :: r =>
      if N.eqb c 37 then
        match r with
        | d :: r' =>
            if N.eqb d 35 then
              match r' with e :: r'' => if existsb (N.eqb e) (s_ "vTtbcdoOqxXUeEfFgGsp") then option_map (cons e) (verbs_of r'') else None | [] => None end
            else if existsb (N.eqb d) (s_ "vTtbcdoOqxXUeEfFgGsp") then option_map (cons d) (verbs_of r') else None
        | [] => None
        end
      else verbs_of r
  end.
Lemma verbs_sound x vs : verbs_of x = Some vs -> formats x vs.
Proof.
  assert (HL : forall c, existsb (N.eqb c) (s_ "vTtbcdoOqxXUeEfFgGsp") = true -> verb_letter c).
  { intros c H. apply existsb_exists in H as (d & Hd & E). apply N.eqb_eq in E as ->. exact Hd. }
  assert (HS : forall n x vs, length x <= n -> verbs_of x = Some vs -> formats x vs).
  { clear x vs. induction n as [|n IH]; intros x vs Hn H.
    - destruct x; [|cbn in Hn; lia]. injection H as <-. constructor.
    - destruct x as [|c r]; [injection H as <-; constructor|]. cbn [verbs_of length] in H, Hn. destruct (N.eqb c 37) eqn:Ec.
      + apply N.eqb_eq in Ec as ->. destruct r as [|d r]; [discriminate|]. cbn [length] in Hn. destruct (N.eqb d 35) eqn:Ed.
        * apply N.eqb_eq in Ed as ->. destruct r as [|e r]; [discriminate|]. cbn [length] in Hn. destruct (existsb _ _) eqn:Ee; [|discriminate].
          destruct (verbs_of r) as [ws|] eqn:Er; [|discriminate]. injection H as <-. apply (formats_verb [35%N] e r ws); [|now apply HL|apply IH; [lia|exact Er]].
          constructor; [|constructor]. unfold flag. vm_compute. tauto.
        * destruct (existsb _ _) eqn:Ee; [|discriminate]. destruct (verbs_of r) as [ws|] eqn:Er; [|discriminate]. injection H as <-.
          apply (formats_verb [] d r ws); [constructor|now apply HL|apply IH; [lia|exact Er]].
      + apply formats_char; [now apply N.eqb_neq|apply IH; [lia|exact H]]. }
  exact (HS (length x) x vs (le_n _)).
Qed.
Ltac literal := intros _; apply verbs_sound; vm_compute; reflexivity.
Ltac showing := unfold shows; cbn; tauto.
(** A text with parts which are plain *)
Lemma formats_around a p b vs : formats a [] -> plain p -> formats b vs -> formats (a ++ p ++ b) vs.
Proof. intros Ha Hp Hb. apply (formats_app a [] (p ++ b) vs Ha). apply (formats_app p [] b vs); [now apply plain_formats|exact Hb]. Qed.
Lemma plain_app a b : plain a -> plain b -> plain (a ++ b).
Proof. unfold plain. rewrite in_app_iff. tauto. Qed.
Lemma layout_plain f : (forall l, convert f = Ok l -> plain l) -> plain (layout f).
Proof. unfold layout. intros H. destruct (convert f) as [l|]; [now apply H|intros []]. Qed.
Lemma uint_plain d : plain (uint_chars d).
Proof. unfold plain. induction d; cbn; intuition discriminate. Qed.
Lemma dec_Z_plain z : plain (dec_Z z).
Proof. unfold dec_Z, dec_N. destruct z; try apply uint_plain. intros [H|H]; [discriminate|]. now apply uint_plain in H. Qed.

Section Typing.
  Variable pk : package.
  Variable g : graph.
  Notation typed := (typed pk).
  Notation assignable := (assignable pk).
  Notation addressable := (addressable pk).
  Notation settable := (settable pk).
  Notation applied := (applied pk).
  Notation yields := (yields pk).
  Notation checks := (checks pk).

  Definition errors_at (G : env) : Prop := declared G (Own "errors") t_errors.
  Lemma library f s : lookup f library_functions = Some s -> function_type pk f = Some s.
  Proof. intros H. unfold function_type. now rewrite H. Qed.

  (** A function without further arguments does not print. *)
  Lemma printed_by f s G args : function_type pk f = Some s -> sg_rest s = None -> printed pk G f args.
  Proof.
    intros H Hr. apply printed_other. intros Hf. unfold function_type in H. cbn [format_functions In] in Hf.
    destruct Hf as [<-|[<-|[]]]; injection H as <-; discriminate Hr.
  Qed.
  Lemma call_typed G f s args t : function_type pk f = Some s -> sg_results s = [t] -> sg_rest s = None -> applied G args (sg_params s) (sg_rest s) -> typed G (XCall f args) t.
  Proof. intros H1 H2 H3 H4. eapply typed_call; [exact H1|exact H2|exact H4|now apply printed_by with s]. Qed.
  Lemma call_yields G f s args : function_type pk f = Some s -> sg_rest s = None -> applied G args (sg_params s) (sg_rest s) -> yields G (XCall f args) (sg_results s).
  Proof. intros H1 H2 H3. eapply yields_call; [exact H1|exact H3|now apply printed_by with s]. Qed.

  (** * The pieces of the templates *)
  Lemma joined_typed G ref : Forall (fun e => assignable G e GString) ref -> typed G (joined ref) GString.
  Proof.
    intros H. eapply call_typed; [apply library; reflexivity|reflexivity|reflexivity|]. cbn [sg_params sg_rest].
    constructor; [apply assignable_same; now apply typed_strings|]. constructor; [apply assignable_text|constructor].
  Qed.
  (** What is told about the arguments of a format: [vet] also looks at the verbs. *)
  Definition tells (G : env) (text : str) (about : list gexpr) : Prop :=
    exists ts, Forall2 (typed G) about ts /\ (pk_vet pk = true -> exists verbs, formats text verbs /\ Forall2 shows verbs ts).
  Lemma tells_one G text v e t : typed G e t -> shows v t -> (pk_vet pk = true -> formats text [v]) -> tells G text [e].
  Proof. intros H1 H2 H3. exists [t]. split; [now repeat constructor|]. intros Hk. exists [v]. split; [auto|constructor; [exact H2|constructor]]. Qed.
  Lemma tells_two G text v w e t f u : typed G e t -> shows v t -> typed G f u -> shows w u -> (pk_vet pk = true -> formats text [v; w]) -> tells G text [e; f].
  Proof.
    intros H1 H2 H3 H4 H5. exists [t; u]. split; [constructor; [exact H1|constructor; [exact H3|constructor]]|].
    intros Hk. exists [v; w]. split; [auto|]. constructor; [exact H2|constructor; [exact H4|constructor]].
  Qed.
  Lemma format_typed f r G text about : In (f, r) [("fmt.Sprintf"%string, GString); ("fmt.Errorf"%string, GError)] -> tells G text about -> typed G (call f (XText text :: about)) r.
  Proof.
    intros Hf (ts & H & Hv). eapply typed_call; [apply library; destruct Hf as [[= <- <-]|[[= <- <-]|[]]]; reflexivity| | |].
    - cbn [In] in Hf. destruct Hf as [[= <- <-]|[[= <- <-]|[]]]; reflexivity.
    - assert (HA : forall l us, Forall2 (typed G) l us -> applied G l [] (Some GAny)).
      { induction 1; [constructor|]. apply applied_rest; [now apply assignable_any with y|assumption]. }
      cbn [In] in Hf. destruct Hf as [[= <- <-]|[[= <- <-]|[]]]; cbn [sg_params sg_rest]; (constructor; [apply assignable_text|]); now apply (HA _ ts).
    - destruct (pk_vet pk) eqn:Ek; [|now apply printed_unchecked]. destruct (Hv eq_refl) as (verbs & Hf' & Hs). apply printed_format with verbs; [exact Hf'|].
      clear -H Hs. revert verbs Hs. induction H as [|e t es ts He _ IH]; intros verbs Hs; inversion Hs; subst; [constructor|].
      now apply shown_arg with t; [| |apply IH].
  Qed.
  Lemma sprintf_typed G text about : tells G text about -> typed G (call "fmt.Sprintf" (XText text :: about)) GString.
  Proof. intros H. apply format_typed; [now left|exact H]. Qed.
  Lemma complain_checks loop G ref text about l : errors_at G -> assignable G ref GString -> tells G text about ->
    checks loop G l -> checks loop G (complain ref text about :: l).
  Proof.
    intros He Hr Ha Hl. eapply checks_do; [exact I| |exact Hl]. eapply yields_method; [apply typed_var; exact He|reflexivity|].
    cbn [sg_params sg_rest]. apply applied_arg; [exact Hr|]. apply applied_arg; [|constructor]. apply assignable_same. now apply sprintf_typed.
  Qed.
  Lemma report_checks loop G ref text about : errors_at G -> Forall (fun e => assignable G e GString) ref -> tells G text about ->
    checks loop G [report ref text about].
  Proof. intros He Hr Ha. apply complain_checks; [exact He| |exact Ha|constructor]. apply assignable_same. now apply joined_typed. Qed.
  Lemma method_typed G e u m s t : typed G e u -> methods u (s_ m) = Some s -> sg_results s = [t] -> sg_params s = [] -> typed G (meth e m []) t.
  Proof. intros He Hm Hr Hp. eapply typed_method; [exact He|exact Hm|exact Hr|]. rewrite Hp. constructor. Qed.
  Lemma full_typed G : errors_at G -> typed G (meth (ow "errors") "Full" []) GBool.
  Proof. intros He. eapply method_typed; [apply typed_var; exact He|reflexivity..]. Qed.
  Lemma empty_typed G : errors_at G -> typed G (meth (ow "errors") "Empty" []) GBool.
  Proof. intros He. eapply method_typed; [apply typed_var; exact He|reflexivity..]. Qed.
  Lemma break_checks G l : errors_at G -> checks true G l -> checks true G (when_full SBreak :: l).
  Proof. intros He Hl. apply checks_if; [now apply full_typed| |constructor|exact Hl]. repeat constructor. Qed.
  Lemma return_checks loop G l : errors_at G -> checks loop G l -> checks loop G (when_full SReturn :: l).
  Proof. intros He Hl. apply checks_if; [now apply full_typed| |constructor|exact Hl]. repeat constructor. Qed.
  Lemma any_same G e t : typed G e t -> assignable G e GAny.
  Proof. apply assignable_any. Qed.

  (** * Parsing *)
  Section Parse.
    Variable registry : cls -> gexpr.

    (** What a type needs of the package, of the registries and of its constants *)
    Fixpoint supported (reg : cls -> Prop) (t : ty) : Prop :=
      constants_fit t /\ (pk_vet pk = true -> texts_plain t) /\
      match t with
      | TStr (Some p) | TPath (Some p) =>
          exists x, pattern_variable (enumerate_patterns g) p = Some x /\ lookup x (pk_variables pk) = Some (GPointer t_regexp)
      | TDuration => function_type pk (s_ "durationFromString") = Some (Sig [GString] None [t_duration; GError])
      | TArray values _ _ | TMap values => supported reg values
      | TClass n => (exists c, find_class g n = Some c /\ reg c) /\ (pk_vet pk = true -> plain (ucamel n))
      | TEmbed n =>
          function_type pk (go_from n) =
            Some (Sig (GAny :: map t_registry (embed_references g n) ++ [GString; GPointer (GNamed (ucamel n)); t_errors]) None []) /\
          forall c, In c (embed_references g n) -> reg c
      | _ => True
      end.
    Lemma supported_impl (P Q : cls -> Prop) t : (forall c, P c -> Q c) -> supported P t -> supported Q t.
    Proof.
      intros H. induction t; cbn [supported]; try tauto; intros (H1 & H0 & H2); (split; [exact H1|]); (split; [exact H0|]).
      - destruct H2 as ((c & E & Hc) & Hp). split; [|exact Hp]. exists c. split; [exact E|]. now apply H.
      - destruct H2 as [E Hc]. split; [exact E|]. intros c Hin. apply H. now apply Hc.
    Qed.
    Definition registry_ready (n : nat) (G : env) (c : cls) : Prop := always n G (fun G' => typed G' (registry c) (t_registry c)).

    Definition is_embed (t : ty) : Prop := match t with TEmbed _ => True | _ => False end.
    (** What the target of a value of the type must allow *)
    Definition target_ready (t : ty) (tg : gexpr) (G : env) : Prop :=
      typed G tg (go_ty t) /\ settable G tg /\ (is_embed t -> addressable G tg).
    Definition ref_ready (ref : list gexpr) (G : env) : Prop := Forall (fun e => assignable G e GString) ref.

    Lemma matches_typed G p x e : pattern_variable (enumerate_patterns g) p = Some x -> lookup x (pk_variables pk) = Some (GPointer t_regexp) ->
      typed G e GString -> typed G (pattern_matches g p e) GBool.
    Proof.
      intros Hp Hx He. unfold pattern_matches. rewrite Hp. eapply typed_method; [apply typed_global; exact Hx|reflexivity|reflexivity|].
      cbn [sg_params sg_rest]. constructor; [|constructor]. now apply assignable_same.
    Qed.

    Lemma applied_app G a b ps qs rest : Forall2 (assignable G) a ps -> applied G b qs rest -> applied G (a ++ b) (ps ++ qs) rest.
    Proof. induction 1; intros Hb; [exact Hb|]. cbn [app]. constructor; auto. Qed.

    (** The head of the templates *)
    Lemma parse_as_checks cast type text value ref n loop G rest l :
      In (s_ cast) go_stems -> s_ cast <> s_ "ok" -> (pk_vet pk = true -> formats (s_ text) [84%N]) ->
      always n G (fun G' => typed G' value GAny) -> always n G (ref_ready ref) -> always n G errors_at ->
      checks loop ((num_var "ok" n, GBool) :: (num_var cast n, type) :: G) rest ->
      checks loop ((num_var "ok" n, GBool) :: (num_var cast n, type) :: G) l ->
      checks loop G (parse_as cast type text value ref n rest ++ l).
    Proof.
      intros Hs Hn Hf Hv Hr He Hrest Hl. unfold parse_as. cbn [app].
      eapply checks_define; [apply yields_assert; exact (always_here _ _ _ Hv)|reflexivity|]. cbn [bind_all].
      assert (HE : extends n G ((num_var "ok" n, GBool) :: (num_var cast n, type) :: G)) by (apply extends_cons; [stem|lia|]; apply extends_cons; [exact Hs|lia|apply extends_refl]).
      apply checks_if; [|apply report_checks|exact Hrest|exact Hl].
      - apply typed_not, typed_var, declared_here.
      - now apply He.
      - now apply Hr.
      - apply (tells_one _ _ 84%N _ GAny); [now apply Hv|showing|exact Hf].
    Qed.

    Lemma assign_checks loop G tg t e l : target_ready t tg G -> typed G e (go_ty t) -> checks loop G l -> checks loop G (SAssign [tg] e :: l).
    Proof. intros (H1 & H2 & _) He Hl. eapply checks_assign; [exact H1|exact H2|now apply assignable_same|exact Hl]. Qed.

    Lemma check_bound_checks op verb v z ref n loop G t rest :
      (pk_vet pk = true -> formats (s_ " " ++ s_ (S_Compare.order_text op) ++ s_ " ") []) -> (pk_vet pk = true -> formats (s_ ", but got: " ++ s_ verb) [v]) -> shows v t ->
      declared G (num_var "cast" n) t -> ordered t -> bound_fits t z -> errors_at G -> ref_ready ref G ->
      checks loop G rest -> checks loop G (check_bound op verb z ref n rest).
    Proof.
      intros Hop Hverb Hshow Hc Ho Hb He Hr Hrest. destruct z as [z|]; [|exact Hrest]. cbn [check_bound].
      apply checks_if; [|apply report_checks; [exact He|exact Hr|]|exact Hrest|constructor].
      - apply typed_not. eapply typed_order; [apply typed_var; exact Hc|exact Ho|]. now apply assignable_number.
      - apply (tells_one _ _ v _ t); [apply typed_var; exact Hc|exact Hshow|]. intros Hk.
        replace (s_ "expected " ++ s_ (S_Compare.order_text op) ++ s_ " " ++ dec_Z z ++ s_ ", but got: " ++ s_ verb)
          with ((s_ "expected" ++ (s_ " " ++ s_ (S_Compare.order_text op) ++ s_ " ")) ++ dec_Z z ++ (s_ ", but got: " ++ s_ verb)) by (rewrite <- !app_assoc; reflexivity).
        apply formats_around; [|apply dec_Z_plain|now apply Hverb]. apply (formats_app _ [] _ []); [apply verbs_sound; reflexivity|now apply Hop].
    Qed.
    Lemma check_size_checks op which z ref n loop G rest :
      (pk_vet pk = true -> formats (s_ "expected an array of " ++ s_ which ++ s_ " size ") []) ->
      declared G (num_var "cast" n) t_array -> bound_fits GInt z -> errors_at G -> ref_ready ref G ->
      checks loop G rest -> checks loop G (check_size op which z ref n rest).
    Proof.
      intros Hw Hc Hb He Hr Hrest. destruct z as [z|]; [|exact Hrest]. cbn [check_size].
      assert (HL : typed G (XLen (vr "cast" n)) GInt) by (eapply typed_len_slice; apply typed_var; exact Hc).
      apply checks_if; [|apply report_checks; [exact He|exact Hr|]|exact Hrest|constructor].
      - eapply typed_order; [exact HL|now left|]. now apply assignable_number.
      - apply (tells_one _ _ 100%N _ GInt); [exact HL|showing|]. intros Hk.
        replace (s_ "expected an array of " ++ s_ which ++ s_ " size " ++ dec_Z z ++ s_ ", but got: %d")
          with ((s_ "expected an array of " ++ s_ which ++ s_ " size ") ++ dec_Z z ++ s_ ", but got: %d") by (rewrite <- !app_assoc; reflexivity).
        apply formats_around; [now apply Hw|apply dec_Z_plain|apply verbs_sound; reflexivity].
    Qed.

    Lemma parse_code_next t : forall value tg ref n, n < snd (parse_code g registry t value tg ref n).
    Proof.
      induction t; intros value tg ref n; cbn [parse_code snd]; try lia;
        match goal with IH : forall value tg ref n, _ |- context[parse_code g registry ?t ?v ?tg ?r ?m] =>
          specialize (IH v tg r m); destruct (parse_code g registry t v tg r m) as [item n'] end; cbn [snd] in *; lia.
    Qed.

    Ltac tyv := apply typed_var; decl.
    Ltac tgt Ht := refine (Ht _ _); ext.

    Lemma parse_code_checks t : forall value tg ref n loop G rest,
      supported (registry_ready n G) t -> always n G (fun G' => typed G' value GAny) -> always n G (target_ready t tg) ->
      always n G (ref_ready ref) -> always n G errors_at -> always n G (fun G' => checks loop G' rest) ->
      checks loop G (fst (parse_code g registry t value tg ref n) ++ rest).
    Proof.
      induction t as [|b|b|pt|pt|fm|fm|fm| | |t IH mn mx|t IH|c|e]; intros value tg ref n loop G rest (Hfit & Hpl & Hsup) Hv Ht Hr He Hrest; cbn [parse_code fst].
      - (* bool *)
        apply parse_as_checks; try assumption; [stem|discriminate|literal| |apply Hrest; ext].
        eapply assign_checks; [tgt Ht|tyv|constructor].
      - (* int *)
        apply parse_as_checks; try assumption; [stem|discriminate|literal| |apply Hrest; ext].
        set (G1 := (num_var "ok" n, GBool) :: (num_var "fcast" n, GFloat64) :: G).
        assert (HF : typed G1 (vr "fcast" n) GFloat64) by tyv. assert (E1 : extends n G G1) by (unfold G1; ext).
        apply checks_if; [|apply report_checks; [now apply He|now apply Hr|apply (tells_one _ _ 102%N _ GFloat64); [exact HF|showing|literal]]| |constructor].
        { eapply typed_equal; [exact HF|cbn; tauto|]. apply assignable_same. eapply call_typed; [apply library; reflexivity|reflexivity|reflexivity|].
          constructor; [now apply assignable_same|constructor]. }
        apply checks_if; [|apply report_checks; [now apply He|now apply Hr|apply (tells_one _ _ 102%N _ GFloat64); [exact HF|showing|literal]]| |constructor].
        { apply typed_or; (eapply typed_order; [exact HF|cbn; tauto|]); apply assignable_number; cbn [representable]; vm_compute; reflexivity. }
        assert (HC : checks loop ((num_var "cast" n, GInt64) :: G1) (check_bounds "%d" b ref n [SAssign [tg] (vr "cast" n)])).
        { assert (E2 : extends n G ((num_var "cast" n, GInt64) :: G1)) by (apply extends_cons; [stem|lia|exact E1]).
          destruct Hfit as [F1 F2]. unfold check_bounds.
          eapply check_bound_checks with (t := GInt64) (v := 100%N); [destruct (b_exmin b), (b_exmax b); literal|literal|showing|apply declared_here|cbn; tauto|exact F1|now apply He|now apply Hr|].
          eapply check_bound_checks with (t := GInt64) (v := 100%N); [destruct (b_exmin b), (b_exmax b); literal|literal|showing|apply declared_here|cbn; tauto|exact F2|now apply He|now apply Hr|].
          eapply assign_checks; [now apply Ht|tyv|constructor]. }
        assert (HD : checks loop G1 (SDefine [Some (num_var "cast" n)] (XConvert GInt64 (vr "fcast" n)) :: check_bounds "%d" b ref n [SAssign [tg] (vr "cast" n)])).
        { eapply checks_define; [apply yields_one, typed_convert; exact HF|reflexivity|exact HC]. }
        destruct (b_min b), (b_max b); try exact HD.
        eapply assign_checks; [now apply Ht|now apply typed_convert|constructor].
      - (* float *)
        apply parse_as_checks; try assumption; [stem|discriminate|literal| |apply Hrest; ext].
        destruct Hfit as [F1 F2]. unfold check_bounds.
        eapply check_bound_checks with (t := GFloat64) (v := 102%N); [destruct (b_exmin b), (b_exmax b); literal|literal|showing|decl|cbn; tauto|exact F1|apply He; ext|apply Hr; ext|].
        eapply check_bound_checks with (t := GFloat64) (v := 102%N); [destruct (b_exmin b), (b_exmax b); literal|literal|showing|decl|cbn; tauto|exact F2|apply He; ext|apply Hr; ext|].
        eapply assign_checks; [tgt Ht|tyv|constructor].
      - (* string *)
        apply parse_as_checks; try assumption; [stem|discriminate|literal| |apply Hrest; ext]. destruct pt as [p|].
        + destruct Hsup as (x & Hx & Hl). apply checks_if; [|apply report_checks; [apply He; ext|apply Hr; ext|]| |constructor].
          * apply typed_not. eapply matches_typed; [exact Hx|exact Hl|tyv].
          * apply (tells_one _ _ 115%N _ GString); [tyv|showing|]. intros Hk. apply formats_around; [now apply verbs_sound|now apply Hpl|now apply verbs_sound].
          * eapply assign_checks; [tgt Ht|tyv|constructor].
        + eapply assign_checks; [tgt Ht|tyv|constructor].
      - (* path *)
        apply parse_as_checks; try assumption; [stem|discriminate|literal| |apply Hrest; ext]. destruct pt as [p|].
        + destruct Hsup as (x & Hx & Hl). apply checks_if; [|apply report_checks; [apply He; ext|apply Hr; ext|]| |constructor].
          * apply typed_not. eapply matches_typed; [exact Hx|exact Hl|tyv].
          * apply (tells_one _ _ 115%N _ GString); [tyv|showing|]. intros Hk. apply formats_around; [now apply verbs_sound|now apply Hpl|now apply verbs_sound].
          * eapply assign_checks; [tgt Ht|tyv|constructor].
        + eapply assign_checks; [tgt Ht|tyv|constructor].
      - (* date *)
        apply parse_as_checks; try assumption; [stem|discriminate|literal| |apply Hrest; ext].
        eapply checks_define; [eapply call_yields; [apply library; reflexivity|reflexivity|constructor; [apply assignable_text|constructor; [apply assignable_same; tyv|constructor]]]|reflexivity|].
        cbn [bind_all sg_results]. apply checks_if; [|apply report_checks; [apply He; ext|apply Hr; ext|]| |constructor].
        + eapply typed_equal_nil; [tyv|exact I].
        + apply (tells_one _ _ 115%N _ GString); [tyv|showing|]. intros Hk. apply formats_around; [now apply verbs_sound|now apply layout_plain, Hpl|now apply verbs_sound].
        + eapply assign_checks; [tgt Ht|tyv|constructor].
      - (* time *)
        apply parse_as_checks; try assumption; [stem|discriminate|literal| |apply Hrest; ext].
        eapply checks_define; [eapply call_yields; [apply library; reflexivity|reflexivity|constructor; [apply assignable_text|constructor; [apply assignable_same; tyv|constructor]]]|reflexivity|].
        cbn [bind_all sg_results]. apply checks_if; [|apply report_checks; [apply He; ext|apply Hr; ext|]| |constructor].
        + eapply typed_equal_nil; [tyv|exact I].
        + apply (tells_one _ _ 115%N _ GString); [tyv|showing|]. intros Hk. apply formats_around; [now apply verbs_sound|now apply layout_plain, Hpl|now apply verbs_sound].
        + eapply assign_checks; [tgt Ht|tyv|constructor].
      - (* datetime *)
        apply parse_as_checks; try assumption; [stem|discriminate|literal| |apply Hrest; ext].
        eapply checks_define; [eapply call_yields; [apply library; reflexivity|reflexivity|constructor; [apply assignable_text|constructor; [apply assignable_same; tyv|constructor]]]|reflexivity|].
        cbn [bind_all sg_results]. apply checks_if; [|apply report_checks; [apply He; ext|apply Hr; ext|]| |constructor].
        + eapply typed_equal_nil; [tyv|exact I].
        + apply (tells_one _ _ 115%N _ GString); [tyv|showing|]. intros Hk. apply formats_around; [now apply verbs_sound|now apply layout_plain, Hpl|now apply verbs_sound].
        + eapply assign_checks; [tgt Ht|tyv|constructor].
      - (* time zone *)
        apply parse_as_checks; try assumption; [stem|discriminate|literal| |apply Hrest; ext].
        eapply checks_define; [eapply call_yields; [apply library; reflexivity|reflexivity|constructor; [apply assignable_same; tyv|constructor]]|reflexivity|].
        cbn [bind_all sg_results]. apply checks_if; [|apply report_checks; [apply He; ext|apply Hr; ext|]| |constructor].
        + eapply typed_equal_nil; [tyv|exact I].
        + apply (tells_two _ _ 118%N 115%N _ GString _ GString); [tyv|showing|eapply method_typed; [tyv|reflexivity..]|showing|literal].
        + eapply assign_checks; [tgt Ht|tyv|constructor].
      - (* duration *)
        apply parse_as_checks; try assumption; [stem|discriminate|literal| |apply Hrest; ext].
        eapply checks_define; [eapply call_yields; [exact Hsup|reflexivity|constructor; [apply assignable_same; tyv|constructor]]|reflexivity|].
        cbn [bind_all sg_results]. apply checks_if; [|apply report_checks; [apply He; ext|apply Hr; ext|]| |constructor].
        + eapply typed_equal_nil; [tyv|exact I].
        + apply (tells_two _ _ 118%N 115%N _ GString _ GString); [tyv|showing|eapply method_typed; [tyv|reflexivity..]|showing|literal].
        + eapply assign_checks; [tgt Ht|tyv|constructor].
      - (* array *)
        match goal with |- context[parse_code g registry t ?v ?x ?r ?m] => specialize (IH v x r m true); destruct (parse_code g registry t v x r m) as [item n'] end.
        cbn [fst] in *. apply parse_as_checks; try assumption; [stem|discriminate|literal| |apply Hrest; ext]. destruct Hfit as [F1 F2].
        apply check_size_checks; [literal|decl|exact F1|apply He; ext|apply Hr; ext|]. apply check_size_checks; [literal|decl|exact F2|apply He; ext|apply Hr; ext|].
        eapply checks_define; [apply yields_one; apply (typed_make_slice _ _ (go_ty t)); apply assignable_same; eapply typed_len_slice; tyv|reflexivity|]. cbn [bind_all].
        eapply checks_range_slice; [tyv| |eapply assign_checks; [tgt Ht|tyv|constructor]].
        set (G1 := (num_var "i" n, GInt) :: (num_var "target" n, GSlice (go_ty t)) :: (num_var "ok" n, GBool) :: (num_var "cast" n, t_array) :: G).
        assert (E1 : extends n G G1) by (unfold G1; ext).
        assert (D : forall s u, declared G1 (num_var s n) u -> In (s_ s) go_stems -> always (S n) G1 (fun G' => declared G' (num_var s n) u))
          by (intros s u Hd Hs; apply declared_always; [apply stable_num; [exact Hs|lia]|exact Hd]).
        assert (Di := D "i"%string GInt ltac:(unfold G1; decl) ltac:(stem)).
        assert (Dt := D "target"%string (GSlice (go_ty t)) ltac:(unfold G1; decl) ltac:(stem)).
        assert (Dc := D "cast"%string t_array ltac:(unfold G1; decl) ltac:(stem)).
        apply IH.
        + eapply supported_impl; [|exact Hsup]. intros c Hc. now apply (always_sub n (S n) G G1 _ (Nat.le_succ_diag_r n)).
        + intros G' HE. eapply typed_element; [apply typed_var; exact (Dc _ HE)|apply assignable_same, typed_var; exact (Di _ HE)].
        + intros G' HE. assert (HT : typed G' (vr "target" n) (GSlice (go_ty t))) by (apply typed_var; exact (Dt _ HE)).
          assert (HA : addressable G' (XIndex (vr "target" n) (vr "i" n))) by (eapply addressable_element; exact HT).
          split; [|split; [now left|now intros _]]. eapply typed_element; [exact HT|apply assignable_same, typed_var; exact (Di _ HE)].
        + intros G' HE. apply Forall_app. split; [apply Hr; now apply (extends_trans n (S n) G G1 _ (Nat.le_succ_diag_r n))|].
          constructor; [|constructor]. apply assignable_same. eapply call_typed; [apply library; reflexivity|reflexivity|reflexivity|].
          constructor; [apply assignable_same, typed_var; exact (Di _ HE)|constructor].
        + now apply (always_sub n (S n) G G1 _ (Nat.le_succ_diag_r n)).
        + intros G' HE. apply break_checks; [|constructor]. apply He. now apply (extends_trans n (S n) G G1 _ (Nat.le_succ_diag_r n)).
      - (* map *)
        match goal with |- context[parse_code g registry t ?v ?x ?r ?m] => specialize (IH v x r m true); destruct (parse_code g registry t v x r m) as [item n'] end.
        cbn [fst] in *. apply parse_as_checks; try assumption; [stem|discriminate|literal| |apply Hrest; ext].
        eapply checks_define; [apply yields_one; apply (typed_make_map _ _ (go_ty t))|reflexivity|]. cbn [bind_all].
        eapply checks_range_map; [tyv| |eapply assign_checks; [tgt Ht|tyv|constructor]].
        set (G1 := (num_var "k" n, GString) :: (num_var "target" n, GMap (go_ty t)) :: (num_var "ok" n, GBool) :: (num_var "cast" n, t_object) :: G).
        assert (E1 : extends n G G1) by (unfold G1; ext).
        set (G2 := match t with TEmbed _ => (num_var "item" n, go_ty t) :: G1 | _ => G1 end).
        assert (E2 : extends n G G2) by (unfold G2; destruct t; try exact E1; apply extends_cons; [stem|lia|exact E1]).
        assert (D : forall s u, declared G1 (num_var s n) u -> In (s_ s) go_stems -> s_ s <> s_ "item" -> always (S n) G2 (fun G' => declared G' (num_var s n) u)).
        { intros s u Hd Hs Hn. apply declared_always; [apply stable_num; [exact Hs|lia]|]. unfold G2. destruct t; try exact Hd.
          apply declared_before; [|exact Hd]. apply num_var_neq; [exact Hs|stem|now left]. }
        assert (Dk := D "k"%string GString ltac:(unfold G1; decl) ltac:(stem) ltac:(discriminate)).
        assert (Dt := D "target"%string (GMap (go_ty t)) ltac:(unfold G1; decl) ltac:(stem) ltac:(discriminate)).
        assert (Dc := D "cast"%string t_object ltac:(unfold G1; decl) ltac:(stem) ltac:(discriminate)).
        assert (HB : forall G', extends (S n) G2 G' -> checks true G' [when_full SBreak]).
        { intros G' HE. apply break_checks; [|constructor]. apply He. now apply (extends_trans n (S n) G G2 _ (Nat.le_succ_diag_r n)). }
        assert (HI : forall l, always (S n) G2 (fun G' => checks true G' l) -> checks true G2 (item ++ l)).
        { intros l Hl. apply IH.
          + eapply supported_impl; [|exact Hsup]. intros c Hc. now apply (always_sub n (S n) G G2 _ (Nat.le_succ_diag_r n)).
          + intros G' HE. eapply typed_entry; [apply typed_var; exact (Dc _ HE)|apply assignable_same, typed_var; exact (Dk _ HE)].
          + intros G' HE. assert (HT : typed G' (vr "target" n) (GMap (go_ty t))) by (apply typed_var; exact (Dt _ HE)).
            assert (HX : typed G' (XIndex (vr "target" n) (vr "k" n)) (go_ty t)) by (eapply typed_entry; [exact HT|apply assignable_same, typed_var; exact (Dk _ HE)]).
            assert (HS : settable G' (XIndex (vr "target" n) (vr "k" n))) by (right; eauto).
            destruct t; try (split; [exact HX|split; [exact HS|intros []]]).
            assert (Di : always (S n) G2 (fun G' => declared G' (num_var "item" n) (go_ty (TEmbed name)))) by (apply declared_always; [apply stable_num; [stem|lia]|apply declared_here]).
            split; [apply typed_var; exact (Di _ HE)|]. split; [left; apply addressable_var|intros _; apply addressable_var].
          + intros G' HE. apply Forall_app. split; [apply Hr; now apply (extends_trans n (S n) G G2 _ (Nat.le_succ_diag_r n))|].
            constructor; [|constructor]. apply assignable_same, typed_var. exact (Dk _ HE).
          + now apply (always_sub n (S n) G G2 _ (Nat.le_succ_diag_r n)).
          + exact Hl. }
        destruct t; try (apply HI; exact HB).
        cbn [app]. apply checks_var. rewrite <- app_assoc. apply HI. intros G' HE.
        assert (Di : always (S n) G2 (fun G' => declared G' (num_var "item" n) (go_ty (TEmbed name)))) by (apply declared_always; [apply stable_num; [stem|lia]|apply declared_here]).
        assert (HT : typed G' (vr "target" n) (GMap (go_ty (TEmbed name)))) by (apply typed_var; exact (Dt _ HE)).
        cbn [app]. eapply checks_assign; [eapply typed_entry; [exact HT|apply assignable_same, typed_var; exact (Dk _ HE)]|right; eauto|apply assignable_same, typed_var; exact (Di _ HE)|].
        now apply HB.
      - (* class *)
        apply parse_as_checks; try assumption; [stem|discriminate|literal| |apply Hrest; ext]. destruct Hsup as ((d & Hd & Hreg) & Hname). rewrite Hd.
        assert (En : c_name d = c) by (apply find_some in Hd as [_ E]; now apply str_eqb_eq).
        set (G1 := (num_var "ok" n, GBool) :: (num_var "cast" n, GString) :: G).
        assert (HR : typed G1 (registry d) (GMap (GPointer (GNamed (ucamel c))))) by (rewrite <- En; apply Hreg; unfold G1; ext). unfold G1 in *.
        eapply checks_define; [eapply yields_entry; [exact HR|apply assignable_same; tyv]|reflexivity|]. cbn [bind_all].
        apply checks_if; [|apply report_checks; [apply He; ext|apply Hr; ext|]| |constructor].
        + apply typed_not. tyv.
        + apply (tells_one _ _ 115%N _ GAny); [apply Hv; ext|showing|]. intros Hk. apply formats_around; [now apply verbs_sound|now apply Hname|now apply verbs_sound].
        + eapply assign_checks; [tgt Ht|tyv|constructor].
      - (* embed *)
        destruct Hsup as [Hf Hreg]. cbn [app]. assert (HA := always_here _ _ _ Ht). destruct HA as (H1 & _ & H3).
        eapply checks_do; [exact I| |exact (always_here _ _ _ Hrest)].
        eapply call_yields; [exact Hf|reflexivity|]. cbn [sg_params sg_rest]. constructor; [apply assignable_same; exact (always_here _ _ _ Hv)|].
        apply applied_app.
        + assert (Hl : forall l, incl l (embed_references g e) -> Forall2 (assignable G) (map registry l) (map t_registry l)).
          { induction l as [|c l IHl]; intros Hl; [constructor|]. cbn [map]. constructor.
            - apply assignable_same. refine (Hreg c _ G (extends_refl n G)). apply Hl. now left.
            - apply IHl. intros x Hx. apply Hl. now right. }
          apply Hl, incl_refl.
        + constructor; [apply assignable_same, joined_typed; exact (always_here _ _ _ Hr)|].
          constructor; [apply assignable_same, typed_addr; [exact H1|now apply H3]|].
          constructor; [apply assignable_same, typed_var; exact (always_here _ _ _ He)|constructor].
    Qed.

    (** ** Properties *)

    Definition own_at (role : string) (t : gtype) (G : env) : Prop := declared G (Own role) t.
    Lemma own_always n G role t : own_at role t G -> always n G (own_at role t).
    Proof. intros H. apply declared_always; [apply stable_own|exact H]. Qed.
    (** The structure [S] has the field of the property. *)
    Definition field_ready (S : str) (p : prop) : Prop := field_type pk S (ucamel (p_name p)) = Some (go_field_ty p).

    Lemma parse_property_checks S p n loop G rest :
      supported (registry_ready n G) (p_type p) -> field_ready S p ->
      own_at "cast" t_object G -> own_at "ref" GString G -> own_at "target" (GPointer (GNamed S)) G -> own_at "errors" t_errors G ->
      always n G (fun G' => checks loop G' rest) ->
      checks loop G (fst (parse_property_code g registry p n) ++ rest).
    Proof.
      intros Hsup Hf Hc Hr Ht He Hrest. unfold parse_property_code.
      set (field := XField (ow "target") (ucamel (p_name p))). set (inter := p_optional p && negb (is_pointer_type (p_type p))).
      assert (HP := fun loop G rest => parse_code_checks (p_type p) (vr "value" n) (if inter then vr "target" n else field) [ow "ref"; XText (p_json p)] (Datatypes.S n) loop G rest).
      destruct (parse_code g registry (p_type p) (vr "value" n) (if inter then vr "target" n else field) [ow "ref"; XText (p_json p)] (Datatypes.S n)) as [parsing n'].
      cbn [fst] in *. cbn [app].
      eapply checks_define; [eapply yields_entry; [apply typed_var; exact Hc|apply assignable_text]|reflexivity|]. cbn [bind_all].
      set (G1 := (num_var "ok" n, GBool) :: (num_var "value" n, GAny) :: G).
      assert (E1 : extends n G G1) by (unfold G1; ext).
      assert (L : n <= Datatypes.S n) by lia.
      (* what holds in the branches *)
      assert (HQ : forall G2 l, extends n G1 G2 -> declared G2 (num_var "value" n) GAny ->
        always (Datatypes.S n) G2 (target_ready (p_type p) (if inter then vr "target" n else field)) ->
        always (Datatypes.S n) G2 (fun G' => checks loop G' l) -> checks loop G2 (parsing ++ l)).
      { intros G2 l E2 Hv Htg Hl. assert (E : extends n G G2) by (now apply (extends_trans n n G G1)).
        apply HP; [| |exact Htg| | |exact Hl].
        - eapply supported_impl; [|exact Hsup]. intros c Hreg. now apply (always_sub n _ G G2 _ L).
        - intros G' HE. apply typed_var. apply (declared_always (Datatypes.S n) G2); [apply stable_num; [stem|lia]|exact Hv|exact HE].
        - intros G' HE. assert (E' := extends_trans n _ G G2 G' L E HE).
          constructor; [apply assignable_same, typed_var; exact (own_always n G _ _ Hr _ E')|constructor; [apply assignable_text|constructor]].
        - intros G' HE. exact (own_always n G _ _ He _ (extends_trans n _ G G2 G' L E HE)). }
      assert (Hfield : always n G (fun G' => typed G' field (go_field_ty p) /\ addressable G' field)).
      { intros G' E. assert (T : typed G' (ow "target") (GPointer (GNamed S))) by (apply typed_var; exact (own_always n G _ _ Ht _ E)).
        split; [eapply typed_field_of_pointer; [exact T|exact Hf]|eapply addressable_field_of_pointer; exact T]. }
      assert (Hplain : inter = false -> always (Datatypes.S n) G1 (target_ready (p_type p) (if inter then vr "target" n else field))).
      { intros Ei G' E. rewrite Ei. destruct (Hfield G' (extends_trans n _ G G1 G' L E1 E)) as [T A].
        assert (ET : go_field_ty p = go_ty (p_type p)).
        { unfold go_field_ty, inter in *. destruct (p_optional p); [|reflexivity]. destruct (is_pointer_type (p_type p)); [reflexivity|discriminate]. }
        rewrite ET in T. split; [exact T|]. split; [now left|now intros _]. }
      assert (Hnil : forall G2, always (Datatypes.S n) G2 (fun G' => checks loop G' [])) by (intros G2 G' _; constructor).
      destruct (p_optional p) eqn:Eo.
      - apply checks_if; [apply typed_var, declared_here| |constructor|exact (Hrest G1 E1)]. destruct inter eqn:Ei.
        + apply checks_var. set (G2 := (num_var "target" n, go_ty (p_type p)) :: G1). apply HQ.
          * unfold G2. ext.
          * unfold G2, G1. decl.
          * intros G' E. assert (D : declared G' (num_var "target" n) (go_ty (p_type p))) by (apply (declared_always (Datatypes.S n) G2); [apply stable_num; [stem|lia]|apply declared_here|exact E]).
            split; [apply typed_var; exact D|]. split; [left; apply addressable_var|intros _; apply addressable_var].
          * intros G' E. assert (E2 : extends n G G2) by (unfold G2, G1; ext).
            assert (D : declared G' (num_var "target" n) (go_ty (p_type p))) by (apply (declared_always (Datatypes.S n) G2); [apply stable_num; [stem|lia]|apply declared_here|exact E]).
            destruct (Hfield G' (extends_trans n _ G G2 G' L E2 E)) as [T A].
            eapply checks_assign; [exact T|now left| |constructor]. apply assignable_same.
            assert (ET : go_field_ty p = GPointer (go_ty (p_type p))).
            { unfold go_field_ty, inter in *. rewrite Eo in *. destruct (is_pointer_type (p_type p)); [discriminate|reflexivity]. }
            rewrite ET. apply typed_addr; [apply typed_var; exact D|apply addressable_var].
        + rewrite <- (app_nil_r parsing). apply HQ; [apply extends_refl|unfold G1; decl|now apply Hplain|apply Hnil].
      - assert (Ei : inter = false) by (unfold inter; now rewrite ?Eo).
        apply checks_if; [apply typed_not, typed_var, declared_here| | |exact (Hrest G1 E1)].
        + eapply checks_do; [exact I| |constructor]. eapply yields_method; [apply typed_var; exact (own_always n G _ _ He _ E1)|reflexivity|].
          constructor; [apply assignable_same, typed_var; exact (own_always n G _ _ Hr _ E1)|]. constructor; [apply assignable_text|constructor].
        + rewrite <- (app_nil_r parsing). apply HQ; [apply extends_refl|unfold G1; decl|now apply Hplain|apply Hnil].
    Qed.
    Lemma parse_property_next p n : n < snd (parse_property_code g registry p n).
    Proof.
      unfold parse_property_code. match goal with |- context[parse_code g registry ?t ?v ?x ?r ?m] => assert (H := parse_code_next t v x r m); destruct (parse_code g registry t v x r m) end.
      cbn [snd] in *. lia.
    Qed.

    Lemma parse_properties_checks S ps : forall n loop G rest,
      Forall (fun p => supported (registry_ready n G) (p_type p) /\ field_ready S p) ps ->
      (ps <> [] -> own_at "cast" t_object G) -> own_at "ref" GString G -> own_at "target" (GPointer (GNamed S)) G -> own_at "errors" t_errors G ->
      always n G (fun G' => checks loop G' rest) ->
      checks loop G (parse_properties_code g registry ps n ++ rest).
    Proof.
      induction ps as [|p ps IH]; intros n loop G rest Hps Hc Hr Ht He Hrest; [exact (always_here _ _ _ Hrest)|].
      inversion Hps as [|? ? [Hs Hf] Hps']; subst. specialize (Hc ltac:(discriminate)). cbn [parse_properties_code].
      assert (HP := fun rest => parse_property_checks S p n loop G rest Hs Hf Hc Hr Ht He). assert (HN := parse_property_next p n).
      destruct (parse_property_code g registry p n) as [parsing n']. cbn [fst snd] in *. rewrite <- app_assoc. apply HP.
      intros G' E. cbn [app]. apply return_checks; [exact (own_always n G _ _ He _ E)|].
      apply IH.
      - eapply Forall_impl; [|exact Hps']. intros q [H1 H2]. split; [|exact H2]. eapply supported_impl; [|exact H1].
        intros c Hreg. apply (always_sub n n' G G'); [lia|exact E|exact Hreg].
      - intros _. exact (own_always n G _ _ Hc _ E).
      - exact (own_always n G _ _ Hr _ E).
      - exact (own_always n G _ _ Ht _ E).
      - exact (own_always n G _ _ He _ E).
      - apply (always_sub n n' G G'); [lia|exact E|exact Hrest].
    Qed.
  End Parse.

  (** * Serialization *)
  Section Serialize.
    Fixpoint supported_to (t : ty) : Prop :=
      match t with
      | TDuration => function_type pk (s_ "durationToString") = Some (Sig [t_duration] None [GString])
      | TArray values _ _ | TMap values => supported_to values
      | TClass n => field_type pk (ucamel n) (s_ "ID") = Some GString
      | TEmbed n => function_type pk (go_to n) = Some (Sig [GPointer (GNamed (ucamel n))] None [t_object])
      | _ => True
      end.
    Definition value_ready (t : ty) (value : gexpr) (G : env) : Prop := typed G value (go_ty t) /\ (is_embed t -> addressable G value).
    Definition any_target (tg : gexpr) (G : env) : Prop := typed G tg GAny /\ settable G tg.

    Lemma serialize_code_next t : forall value target n, n <= snd (serialize_code t value target n).
    Proof.
      induction t; intros value target n; cbn [serialize_code snd]; try lia;
        match goal with IH : forall value target n, _ |- context[serialize_code ?t ?v ?tg ?m] =>
          specialize (IH v tg m); destruct (serialize_code t v tg m) as [item n'] end; cbn [snd] in *; lia.
    Qed.
    Lemma store_checks loop G tg e l : any_target tg G -> assignable G e GAny -> checks loop G l -> checks loop G (SAssign [tg] e :: l).
    Proof. intros [H1 H2] He Hl. eapply checks_assign; [exact H1|exact H2|exact He|exact Hl]. Qed.

    Lemma serialize_code_checks t : forall value target n loop G rest,
      supported_to t -> always n G (value_ready t value) -> always n G (any_target target) -> always n G (fun G' => checks loop G' rest) ->
      checks loop G (fst (serialize_code t value target n) ++ rest).
    Proof.
      induction t as [|b|b|pt|pt|fm|fm|fm| | |t IH mn mx|t IH|c|e]; intros value target n loop G rest Hsup Hv Ht Hrest; cbn [serialize_code fst app];
        try (destruct (always_here _ _ _ Hv) as [V VA]);
        try (apply store_checks; [exact (always_here _ _ _ Ht)| |exact (always_here _ _ _ Hrest)]).
      - now apply any_same with GBool.
      - now apply any_same with GInt64.
      - now apply any_same with GFloat64.
      - now apply any_same with GString.
      - now apply any_same with GString.
      - destruct (layout fm); [apply assignable_text_any|]. apply any_same with GString. eapply typed_method; [exact V|reflexivity|reflexivity|].
        constructor; [apply assignable_text|constructor].
      - destruct (layout fm); [apply assignable_text_any|]. apply any_same with GString. eapply typed_method; [exact V|reflexivity|reflexivity|].
        constructor; [apply assignable_text|constructor].
      - destruct (layout fm); [apply assignable_text_any|]. apply any_same with GString. eapply typed_method; [exact V|reflexivity|reflexivity|].
        constructor; [apply assignable_text|constructor].
      - apply any_same with GString. eapply method_typed; [exact V|reflexivity..].
      - apply any_same with GString. eapply call_typed; [exact Hsup|reflexivity|reflexivity|]. constructor; [now apply assignable_same|constructor].
      - (* array *)
        match goal with |- context[serialize_code t ?v ?x ?m] => specialize (IH v x m true); destruct (serialize_code t v x m) as [item n'] end.
        cbn [fst app] in *.
        eapply checks_define; [apply yields_one; eapply typed_len_slice; exact V|reflexivity|]. cbn [bind_all].
        set (Ga := (num_var "count" n, GInt) :: G). assert (Ea : extends n G Ga) by (unfold Ga; ext).
        eapply checks_define; [apply yields_one; exact (proj1 (Hv Ga Ea))|reflexivity|]. cbn [bind_all go_ty].
        eapply checks_define; [apply yields_one; apply (typed_make_slice _ _ GAny); apply assignable_same, typed_var; unfold Ga; decl|reflexivity|]. cbn [bind_all].
        set (Gb := (num_var "target" n, GSlice GAny) :: (num_var "slice" n, GSlice (go_ty t)) :: Ga). assert (Eb : extends n G Gb) by (unfold Gb, Ga; ext).
        apply checks_for.
        { eapply typed_order; [apply typed_var, declared_here|now left|apply assignable_same, typed_var; unfold Gb, Ga; decl]. }
        { set (G1 := (num_var "i" n, GInt) :: Gb).
          assert (D : forall s u, declared G1 (num_var s n) u -> In (s_ s) go_stems -> always (S n) G1 (fun G' => declared G' (num_var s n) u))
            by (intros s u Hd Hs; apply declared_always; [apply stable_num; [exact Hs|lia]|exact Hd]).
          assert (Di := D "i"%string GInt ltac:(unfold G1; decl) ltac:(stem)).
          assert (Dt := D "target"%string (GSlice GAny) ltac:(unfold G1, Gb; decl) ltac:(stem)).
          assert (Ds := D "slice"%string (GSlice (go_ty t)) ltac:(unfold G1, Gb; decl) ltac:(stem)).
          rewrite <- (app_nil_r item). apply IH; [exact Hsup| | |intros G' _; constructor].
          - intros G' HE. assert (HT : typed G' (vr "slice" n) (GSlice (go_ty t))) by (apply typed_var; exact (Ds _ HE)).
            split; [eapply typed_element; [exact HT|apply assignable_same, typed_var; exact (Di _ HE)]|]. intros _. eapply addressable_element. exact HT.
          - intros G' HE. assert (HT : typed G' (vr "target" n) (GSlice GAny)) by (apply typed_var; exact (Dt _ HE)).
            split; [eapply typed_element; [exact HT|apply assignable_same, typed_var; exact (Di _ HE)]|]. left. eapply addressable_element. exact HT. }
        apply store_checks; [exact (Ht Gb Eb)|apply any_same with (GSlice GAny); apply typed_var; unfold Gb; decl|exact (Hrest Gb Eb)].
      - (* map *)
        match goal with |- context[serialize_code t ?v ?x ?m] => specialize (IH v x m true); destruct (serialize_code t v x m) as [item n'] end.
        cbn [fst app] in *.
        eapply checks_define; [apply yields_one; apply (typed_make_map _ _ GAny)|reflexivity|]. cbn [bind_all].
        set (Ga := (num_var "target" n, GMap GAny) :: G). assert (Ea : extends n G Ga) by (unfold Ga; ext).
        eapply checks_define; [apply yields_one; exact (proj1 (Hv Ga Ea))|reflexivity|]. cbn [bind_all go_ty].
        set (Gb := (num_var "map" n, GMap (go_ty t)) :: Ga). assert (Eb : extends n G Gb) by (unfold Gb, Ga; ext).
        eapply checks_range_entries; [apply typed_var, declared_here| |].
        { set (G1 := (num_var "v" n, go_ty t) :: (num_var "k" n, GString) :: Gb).
          assert (D : forall s u, declared G1 (num_var s n) u -> In (s_ s) go_stems -> always (S n) G1 (fun G' => declared G' (num_var s n) u))
            by (intros s u Hd Hs; apply declared_always; [apply stable_num; [exact Hs|lia]|exact Hd]).
          assert (Dk := D "k"%string GString ltac:(unfold G1; decl) ltac:(stem)).
          assert (Dt := D "target"%string (GMap GAny) ltac:(unfold G1, Gb, Ga; decl) ltac:(stem)).
          assert (Dv := D "v"%string (go_ty t) ltac:(unfold G1; decl) ltac:(stem)).
          rewrite <- (app_nil_r item). apply IH; [exact Hsup| | |intros G' _; constructor].
          - intros G' HE. split; [apply typed_var; exact (Dv _ HE)|]. intros _. apply addressable_var.
          - intros G' HE. assert (HT : typed G' (vr "target" n) (GMap GAny)) by (apply typed_var; exact (Dt _ HE)).
            split; [eapply typed_entry; [exact HT|apply assignable_same, typed_var; exact (Dk _ HE)]|]. right. eauto. }
        apply store_checks; [exact (Ht Gb Eb)|apply any_same with (GMap GAny); apply typed_var; unfold Gb, Ga; decl|exact (Hrest Gb Eb)].
      - (* class *) apply any_same with GString. eapply typed_field_of_pointer; [exact V|exact Hsup].
      - (* embed *) apply any_same with t_object. eapply call_typed; [exact Hsup|reflexivity|reflexivity|].
        constructor; [|constructor]. apply assignable_same, typed_addr; [exact V|now apply VA].
    Qed.

    Lemma serialize_property_checks S p n loop G rest :
      supported_to (p_type p) -> field_ready S p ->
      own_at "instance" (GPointer (GNamed S)) G -> own_at "target" t_object G ->
      always n G (fun G' => checks loop G' rest) ->
      checks loop G (fst (serialize_property_code p n) ++ rest).
    Proof.
      intros Hsup Hf Hi Ht Hrest. unfold serialize_property_code.
      set (field := XField (ow "instance") (ucamel (p_name p))). set (inter := p_optional p && negb (is_pointer_type (p_type p))).
      assert (HP := fun loop G rest => serialize_code_checks (p_type p) (if inter then XDeref field else field) (XIndex (ow "target") (XText (p_json p))) n loop G rest).
      destruct (serialize_code (p_type p) (if inter then XDeref field else field) (XIndex (ow "target") (XText (p_json p))) n) as [ser n'].
      cbn [fst] in *.
      assert (Hfield : always n G (fun G' => typed G' field (go_field_ty p) /\ addressable G' field)).
      { intros G' E. assert (T : typed G' (ow "instance") (GPointer (GNamed S))) by (apply typed_var; exact (own_always n G _ _ Hi _ E)).
        split; [eapply typed_field_of_pointer; [exact T|exact Hf]|eapply addressable_field_of_pointer; exact T]. }
      assert (Hvalue : always n G (value_ready (p_type p) (if inter then XDeref field else field))).
      { intros G' E. destruct (Hfield G' E) as [T A]. unfold go_field_ty, inter in *. destruct (p_optional p); cbn [andb].
        - destruct (is_pointer_type (p_type p)); cbn [negb]; (split; [|intros _]); [exact T|exact A|now apply typed_deref|apply addressable_deref].
        - split; [exact T|intros _; exact A]. }
      assert (Htarget : always n G (any_target (XIndex (ow "target") (XText (p_json p))))).
      { intros G' E. assert (T : typed G' (ow "target") t_object) by (apply typed_var; exact (own_always n G _ _ Ht _ E)).
        split; [eapply typed_entry; [exact T|apply assignable_text]|]. right. eexists _, _, _. split; [reflexivity|exact T]. }
      assert (Hnullable : p_optional p = true -> nillable (go_field_ty p)).
      { intros Eo. unfold go_field_ty. rewrite Eo. destruct (p_type p); exact I. }
      destruct (p_optional p).
      - cbn [app]. apply checks_if; [| |constructor|exact (always_here _ _ _ Hrest)].
        + eapply typed_equal_nil; [exact (proj1 (always_here _ _ _ Hfield))|now apply Hnullable].
        + rewrite <- (app_nil_r ser). apply HP; [exact Hsup|exact Hvalue|exact Htarget|intros G' _; constructor].
      - apply HP; [exact Hsup|exact Hvalue|exact Htarget|exact Hrest].
    Qed.
    Lemma serialize_property_next p n : n <= snd (serialize_property_code p n).
    Proof.
      unfold serialize_property_code. match goal with |- context[serialize_code ?t ?v ?x ?m] => assert (H := serialize_code_next t v x m); destruct (serialize_code t v x m) end.
      cbn [snd] in *. lia.
    Qed.
    Lemma serialize_properties_checks S ps : forall n loop G rest,
      Forall (fun p => supported_to (p_type p) /\ field_ready S p) ps ->
      own_at "instance" (GPointer (GNamed S)) G -> own_at "target" t_object G ->
      always n G (fun G' => checks loop G' rest) -> checks loop G (serialize_properties_code ps n ++ rest).
    Proof.
      induction ps as [|p ps IH]; intros n loop G rest Hps Hi Ht Hrest; [exact (always_here _ _ _ Hrest)|].
      inversion Hps as [|? ? [Hs Hf] Hps']; subst. cbn [serialize_properties_code].
      assert (HP := fun rest => serialize_property_checks S p n loop G rest Hs Hf Hi Ht). assert (HN := serialize_property_next p n).
      destruct (serialize_property_code p n) as [ser n']. cbn [fst snd] in *. rewrite <- app_assoc. apply HP.
      intros G' E. apply IH; [exact Hps'|exact (own_always n G _ _ Hi _ E)|exact (own_always n G _ _ Ht _ E)|].
      apply (always_sub n n' G G'); [lia|exact E|exact Hrest].
    Qed.
  End Serialize.
End Typing.
